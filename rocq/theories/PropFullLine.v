(** * C01: the whole logical line of a text and of an address, written out char by char *)
From Verif Require Import Base Env Chrono Nom Types Ser Parser Derive BaseFacts NomFacts SpecLine LineFacts SpecText SerFacts PropText PropLine SpecRound RoundFacts BackFacts SpecExact ExactFacts.

(** After unfolding: the name, a semicolon and [NAME=value] for each parameter, a colon, the value with each of
    semicolon, comma and line feed escaped, and CR LF. No [escape], [params_attr] or [logical_line] of the model is in the statement. *)
Theorem C01_whole_line : forall (name : str) (t : text) (out : str),
  ~ In LF name -> (forall k v, In (k, v) (t_params t) -> ~ In LF k) -> t_text t <> [] -> ser_field ser_text name t = Ok out ->
  unfold_lines out =
    name ++ concat (map (fun kv => [59] ++ fst kv ++ [61] ++ flat_map escaped_char (snd kv)) (t_params t)) ++
    [58] ++ flat_map escaped_char (t_text t) ++ [CR; LF].
Proof.
  intros name t out Hn Hp Ht H. rewrite (C01_text name t out Hn Hp Ht H), raw_logical. unfold raw_line, raw_params. cbn [cl_key cl_params cl_value].
  now rewrite <- escaped_escape.
Qed.
Theorem C01_whole_address : forall (name : str) (u : uri) (out : str),
  ~ In LF name -> (forall k v, In (k, v) (u_params u) -> ~ In LF k) -> u_uri u <> [] -> ser_field ser_uri name u = Ok out ->
  unfold_lines out =
    name ++ concat (map (fun kv => [59] ++ fst kv ++ [61] ++ flat_map escaped_char (snd kv)) (u_params u)) ++
    [58] ++ flat_map escaped_char (u_uri u) ++ [CR; LF].
Proof.
  intros name [m s] out Hn Hp Ht H. cbn [u_params u_uri] in *.
  apply (C01_whole_line name (mk_text m s) out Hn Hp Ht).
  rewrite <- H. reflexivity.
Qed.
(** No parameter, no semicolon. *)
Corollary C01_bare_line : forall (name s out : str),
  ~ In LF name -> s <> [] -> ser_field ser_text name (text_of_str s) = Ok out ->
  unfold_lines out = name ++ [58] ++ flat_map escaped_char s ++ [CR; LF].
Proof. intros name s out Hn Hs H. apply (C01_whole_line name (text_of_str s) out Hn); auto. Qed.
Example C01_nonvacuous_whole :
  exists out, ser_field ser_text (lit "SUMMARY") (mk_text [(lit "ALTREP", lit "a,b"); (lit "LANGUAGE", lit "en")] (lit "one; two")) = Ok out /\
    unfold_lines out = lit "SUMMARY;ALTREP=a\,b;LANGUAGE=en:one\; two" ++ [CR; LF].
Proof. eexists. split; vm_compute; reflexivity. Qed.
Example C01_nonvacuous_bare :
  exists out, ser_field ser_text (lit "SUMMARY") (text_of_str (repeat 97 200)) = Ok out /\ unfold_lines out = lit "SUMMARY:" ++ repeat 97 200 ++ [CR; LF] /\ contains FOLD out.
Proof.
  eexists. split; [vm_compute; reflexivity|]. split; [vm_compute; reflexivity|].
  unfold contains. exists (lit "SUMMARY:" ++ repeat 97 67), (repeat 97 75 ++ FOLD ++ repeat 97 58 ++ [CR; LF]).
  vm_compute. reflexivity.
Qed.
