(** * Facts about Nom.v *)
From Verif Require Import Base Nom BaseFacts.

Definition suffix (r s : str) : Prop := exists pre, s = pre ++ r.
Lemma suffix_refl s : suffix s s.
Proof. now exists []. Qed.
Lemma suffix_trans a b c : suffix a b -> suffix b c -> suffix a c.
Proof. intros [p ->] [q ->]. exists (q ++ p). now rewrite app_assoc. Qed.
Lemma suffix_app p s : suffix s (p ++ s).
Proof. now exists p. Qed.
Lemma suffix_length a b : suffix a b -> (length a <= length b)%nat.
Proof. intros [p ->]. rewrite app_length. lia. Qed.
Lemma suffix_eq a b : suffix a b -> length a = length b -> a = b.
Proof. intros [p ->] H. rewrite app_length in H. destruct p; auto. cbn in H. lia. Qed.

(** The remaining input is a suffix of the input. *)
Definition tails {A} (p : parser A) : Prop := forall s r a, p s = POk r a -> suffix r s.
(** The parser never panics. *)
Definition calm {A} (p : parser A) : Prop := forall s, p s <> PPanic.

Lemma pbind_POk {A B} (p : parser A) (f : A -> parser B) s r b :
  pbind p f s = POk r b <-> exists r0 a, p s = POk r0 a /\ f a r0 = POk r b.
Proof.
  unfold pbind. destruct (p s) as [r0 a| |]; split; try congruence; eauto.
  - intros (? & ? & [= <- <-] & H); auto.
  - intros (? & ? & ? & H); congruence.
  - intros (? & ? & ? & H); congruence.
Qed.
Lemma pret_POk {A} (a b : A) s r : pret a s = POk r b <-> r = s /\ b = a.
Proof. unfold pret. split; [intros [= <- <-]; auto|intros [-> ->]; auto]. Qed.
Lemma tag_POk t s r a : tag t s = POk r a <-> s = t ++ r /\ a = t.
Proof.
  unfold tag. destruct (strip_prefix t s) eqn:H.
  - apply strip_prefix_Some in H. subst. split; [intros [= <- <-]; auto|].
    intros [E ->]. apply app_inv_head in E. now subst.
  - split; [congruence|]. intros [-> _]. rewrite strip_prefix_app in H. congruence.
Qed.
Lemma tag_app t s : tag t (t ++ s) = POk s t.
Proof. now apply tag_POk. Qed.
Lemma tag_PErr t s : tag t s = PErr <-> forall r, s <> t ++ r.
Proof.
  unfold tag. destruct (strip_prefix t s) eqn:H.
  - apply strip_prefix_Some in H. split; [congruence|]. intros G. now apply G in H.
  - split; auto. intros _ r ->. rewrite strip_prefix_app in H. congruence.
Qed.
Lemma pchar_POk c s r a : pchar c s = POk r a <-> s = c :: r /\ a = c.
Proof.
  unfold pchar. destruct s as [|x s]; [split; [congruence|intros [? _]; congruence]|].
  destruct (Z.eqb_spec x c); [subst; split; [intros [= <- <-]; auto|intros [[= <-] ->]; auto]|].
  split; [congruence|]. intros [[= ? ?] _]. congruence.
Qed.
Lemma pchar_cons c s : pchar c (c :: s) = POk s c.
Proof. now apply pchar_POk. Qed.
Lemma anychar_POk s r a : anychar s = POk r a <-> s = a :: r.
Proof. unfold anychar. destruct s; split; congruence. Qed.

Definition all_of (f : char -> bool) (s : str) : Prop := forall c, In c s -> f c = true.
Definition stops (f : char -> bool) (s : str) : Prop := match s with c :: _ => f c = false | [] => True end.
Lemma span_spec f s a b : span f s = (a, b) <-> s = a ++ b /\ all_of f a /\ stops f b.
Proof.
  revert a b; induction s as [|x s IH]; intros a b; cbn.
  - split.
    + intros [= <- <-]. repeat split; cbn; auto. intros ? [].
    + intros (H & _ & _). symmetry in H. apply app_eq_nil in H as [-> ->]. auto.
  - destruct (f x) eqn:Hx.
    + destruct (span f s) as [a' b'] eqn:Hs. split.
      * intros [= <- <-]. destruct (proj1 (IH a' b') eq_refl) as (-> & Ha & Hb).
        repeat split; auto. intros c [<-|Hc]; auto.
      * intros (E & Ha & Hb). destruct a as [|y a].
        -- cbn in E. subst b. cbn in Hb. congruence.
        -- cbn in E. injection E as <- ->.
           assert (E : (a', b') = (a, b)).
           { apply IH. repeat split; auto. intros c Hc. apply Ha. cbn; auto. }
           now injection E as -> ->.
    + split.
      * intros [= <- <-]. repeat split; cbn; auto. intros ? [].
      * intros (E & Ha & Hb). destruct a as [|y a]; [cbn in E; subst; auto|].
        cbn in E. injection E as <- ->. rewrite Ha in Hx; cbn; auto. congruence.
Qed.
Lemma span_app f a b : all_of f a -> stops f b -> span f (a ++ b) = (a, b).
Proof. intros. now apply span_spec. Qed.
Lemma take_while_POk f s r a : take_while f s = POk r a <-> s = a ++ r /\ all_of f a /\ stops f r.
Proof.
  unfold take_while. destruct (span f s) as [x y] eqn:H. rewrite <- span_spec, H. split; [intros [= <- <-]|intros [= <- <-]]; auto.
Qed.
Lemma take_while_app f a b : all_of f a -> stops f b -> take_while f (a ++ b) = POk b a.
Proof. intros. now apply take_while_POk. Qed.
Lemma take_while_ok f s : exists r a, take_while f s = POk r a.
Proof. unfold take_while. destruct (span f s); eauto. Qed.
Lemma take_till_POk f s r a :
  take_till f s = POk r a <->
  s = a ++ r /\ (forall c, In c a -> f c = false) /\ match r with c :: _ => f c = true | [] => True end.
Proof.
  unfold take_till. rewrite take_while_POk. unfold all_of, stops. split; intros (-> & H & H1); repeat split; auto.
  - intros c Hc. apply H in Hc. now apply negb_true_iff in Hc.
  - destruct r; auto. now apply negb_false_iff in H1.
  - intros c Hc. apply H in Hc. now apply negb_true_iff.
  - destruct r; auto. now apply negb_false_iff.
Qed.
Lemma take_till_ok f s : exists r a, take_till f s = POk r a.
Proof. apply take_while_ok. Qed.

(** ** Suffixes and panics *)
Lemma tails_bind {A B} (p : parser A) (f : A -> parser B) : tails p -> (forall a, tails (f a)) -> tails (pbind p f).
Proof.
  intros Hp Hf s r b H. apply pbind_POk in H as (r0 & a & H1 & H2).
  eapply suffix_trans; [eapply Hf|eapply Hp]; eauto.
Qed.
Lemma tails_ret {A} (a : A) : tails (pret a).
Proof. intros s r b [= <- <-]. apply suffix_refl. Qed.
Lemma tails_tag t : tails (tag t).
Proof. intros s r a H. apply tag_POk in H as [-> _]. apply suffix_app. Qed.
Lemma tails_char c : tails (pchar c).
Proof. intros s r a H. apply pchar_POk in H as [-> _]. apply (suffix_app [c]). Qed.
Lemma tails_anychar : tails anychar.
Proof. intros s r a H. apply anychar_POk in H as ->. apply (suffix_app [a]). Qed.
Lemma tails_while f : tails (take_while f).
Proof. intros s r a H. apply take_while_POk in H as [-> _]. apply suffix_app. Qed.
Lemma tails_till f : tails (take_till f).
Proof. apply tails_while. Qed.
Lemma tails_opt {A} (p : parser A) : tails p -> tails (popt p).
Proof.
  intros Hp s r a. unfold popt. destruct (p s) eqn:H; intros [= <- <-]; [eauto|apply suffix_refl].
Qed.
Lemma tails_not {A} (p : parser A) : tails (pnot p).
Proof. intros s r a. unfold pnot. destruct (p s); intros [= <- <-]. apply suffix_refl. Qed.
Lemma tails_alt {A} (p q : parser A) : tails p -> tails q -> tails (palt p q).
Proof. intros Hp Hq s r a. unfold palt. destruct (p s) eqn:H; intros G; try congruence; [inv G|]; eauto. Qed.
Lemma tails_map {A B} (p : parser A) (f : A -> B) : tails p -> tails (pmap p f).
Proof. intros Hp. apply tails_bind; auto. intros; apply tails_ret. Qed.
Lemma tails_map_res {A B} (p : parser A) (f : A -> outcome B) : tails p -> tails (pmap_res p f).
Proof.
  intros Hp. apply tails_bind; auto. intros a s r b. destruct (f a); intros [= <- <-]. apply suffix_refl.
Qed.

Lemma calm_bind {A B} (p : parser A) (f : A -> parser B) : calm p -> (forall a, calm (f a)) -> calm (pbind p f).
Proof. intros Hp Hf s. unfold pbind. specialize (Hp s). destruct (p s); [apply Hf|congruence..]. Qed.
Lemma calm_ret {A} (a : A) : calm (pret a).
Proof. intros s. unfold pret. congruence. Qed.
Lemma calm_tag t : calm (tag t).
Proof. intros s. unfold tag. destruct strip_prefix; congruence. Qed.
Lemma calm_char c : calm (pchar c).
Proof. intros s. unfold pchar. destruct s; [congruence|]. destruct (_ =? _); congruence. Qed.
Lemma calm_anychar : calm anychar.
Proof. intros s. unfold anychar. destruct s; congruence. Qed.
Lemma calm_while f : calm (take_while f).
Proof. intros s. unfold take_while. destruct span; congruence. Qed.
Lemma calm_till f : calm (take_till f).
Proof. apply calm_while. Qed.
Lemma calm_opt {A} (p : parser A) : calm p -> calm (popt p).
Proof. intros Hp s. unfold popt. specialize (Hp s). destruct (p s); congruence. Qed.
Lemma calm_not {A} (p : parser A) : calm p -> calm (pnot p).
Proof. intros Hp s. unfold pnot. specialize (Hp s). destruct (p s); congruence. Qed.
Lemma calm_alt {A} (p q : parser A) : calm p -> calm q -> calm (palt p q).
Proof. intros Hp Hq s. unfold palt. specialize (Hp s). specialize (Hq s). destruct (p s); congruence. Qed.
Lemma calm_map {A B} (p : parser A) (f : A -> B) : calm p -> calm (pmap p f).
Proof. intros Hp. apply calm_bind; auto. intros; apply calm_ret. Qed.
Lemma calm_map_res {A B} (p : parser A) (f : A -> outcome B) : calm p -> (forall a, f a <> Panic) -> calm (pmap_res p f).
Proof. intros Hp Hf. apply calm_bind; auto. intros a s. specialize (Hf a). destruct (f a); congruence. Qed.

Create HintDb nom.
#[export] Hint Resolve tails_bind tails_ret tails_tag tails_char tails_anychar tails_while tails_till tails_opt
  tails_not tails_alt tails_map tails_map_res
  calm_bind calm_ret calm_tag calm_char calm_anychar calm_while calm_till calm_opt calm_not calm_alt calm_map calm_map_res : nom.

(** ** [many0] *)
Section Many.
  Context {A : Type} (p : parser A).
  (** [many_run s l r]: [p] reads the items [l] one after the other from [s],
      each consuming something, and fails (recoverably) on the rest [r]. *)
  Inductive many_run : str -> list A -> str -> Prop :=
  | mr_nil s : p s = PErr -> many_run s [] s
  | mr_cons s r a l r' :
      p s = POk r a -> (length r < length s)%nat -> many_run r l r' -> many_run s (a :: l) r'.
  Inductive many_panic : str -> Prop :=
  | mp_now s : p s = PPanic -> many_panic s
  | mp_later s r a : p s = POk r a -> (length r < length s)%nat -> many_panic r -> many_panic s.
  (** An item that consumes nothing. *)
  Inductive many_stuck : str -> Prop :=
  | mt_now s r a : p s = POk r a -> length r = length s -> many_stuck s
  | mt_later s r a : p s = POk r a -> (length r < length s)%nat -> many_stuck r -> many_stuck s.
  Hypothesis Hp : tails p.
  Lemma many0_fuel_spec fuel s : (length s < fuel)%nat ->
    match many0_fuel fuel p s with
    | POk r l => many_run s l r
    | PErr => many_stuck s
    | PPanic => many_panic s
    end.
  Proof.
    revert s; induction fuel as [|f IH]; intros s Hf; [lia|]. cbn.
    destruct (p s) as [r a| |] eqn:H; [|now constructor|now constructor].
    pose proof (suffix_length _ _ (Hp _ _ _ H)).
    destruct (Nat.eqb_spec (length r) (length s)); [eapply mt_now; eauto|].
    specialize (IH r ltac:(lia)). destruct (many0_fuel f p r) as [r' l| |].
    - eapply mr_cons; eauto. lia.
    - eapply mt_later; eauto. lia.
    - eapply mp_later; eauto. lia.
  Qed.
  Lemma many0_spec s :
    match many0 p s with
    | POk r l => many_run s l r
    | PErr => many_stuck s
    | PPanic => many_panic s
    end.
  Proof. apply many0_fuel_spec. lia. Qed.
  Lemma many_run_det s l r l' r' : many_run s l r -> many_run s l' r' -> l = l' /\ r = r'.
  Proof.
    intros H; revert l' r'; induction H as [s Hs|s r1 a l r' Hs Hl H IH]; intros l2 r2 H2.
    - inv H2; [auto|congruence].
    - inversion H2 as [|? ? ? ? ? E ? G]; subst; [congruence|]. rewrite Hs in E. inv E. destruct (IH _ _ G) as [-> ->]. auto.
  Qed.
  Lemma many_run_not_stuck s l r : many_run s l r -> ~ many_stuck s.
  Proof.
    induction 1 as [s Hs|s r1 a l r' Hs Hl H IH]; intros G; inv G; try congruence.
    rewrite Hs in H0. inv H0. lia.
  Qed.
  Lemma many_run_not_panic s l r : many_run s l r -> ~ many_panic s.
  Proof.
    induction 1 as [s Hs|s r1 a l r' Hs Hl H IH]; intros G; inv G; congruence.
  Qed.
  Lemma many0_POk s r l : many0 p s = POk r l <-> many_run s l r.
  Proof.
    pose proof (many0_spec s) as H. split.
    - intros E. now rewrite E in H.
    - intros G. destruct (many0 p s) as [r' l'| |].
      + destruct (many_run_det _ _ _ _ _ G H) as [-> ->]. auto.
      + now apply many_run_not_stuck in G.
      + now apply many_run_not_panic in G.
  Qed.
  Lemma many_run_suffix s l r : many_run s l r -> suffix r s.
  Proof.
    induction 1 as [s Hs|s r1 a l r' Hs Hl H IH]; [apply suffix_refl|].
    eapply suffix_trans; eauto.
  Qed.
  (** What happens when every item consumes something. *)
  Lemma many0_progress s :
    (forall s r a, p s = POk r a -> (length r < length s)%nat) ->
    many0 p s = PPanic \/ exists r l, many0 p s = POk r l.
  Proof.
    intros Hc. pose proof (many0_spec s) as H. destruct (many0 p s) as [r l| |]; eauto.
    exfalso. induction H; [apply Hc in H; lia|auto].
  Qed.
End Many.
Lemma tails_many0 {A} (p : parser A) : tails p -> tails (many0 p).
Proof. intros Hp s r l H. apply many0_POk in H; auto. eapply many_run_suffix; eauto. Qed.
Lemma calm_many0 {A} (p : parser A) : tails p -> calm p -> calm (many0 p).
Proof.
  intros Ht Hc s. pose proof (many0_spec p Ht s) as H. intros E. rewrite E in H. clear E.
  induction H; [eapply Hc; eauto|auto].
Qed.
Lemma many0_ext {A} (p q : parser A) : (forall s, p s = q s) -> forall s, many0 p s = many0 q s.
Proof.
  intros H s. unfold many0. generalize (S (length s)). intros n; revert s; induction n as [|n IH]; intros s; cbn; rewrite H; auto.
  destruct (q s); auto. destruct (_ =? _)%nat; auto. now rewrite IH.
Qed.
#[export] Hint Resolve tails_many0 calm_many0 : nom.

Lemma tails_nom_i8 : tails nom_i8.
Proof.
  unfold nom_i8. apply tails_bind; [eauto 6 with nom|]. intros sg. apply tails_bind; [eauto with nom|].
  intros ds s r a. destruct ds; [congruence|].
  destruct sg as [[]|]; destruct (_ <=? _); intros [= <- <-]; apply suffix_refl.
Qed.
Lemma calm_nom_i8 : calm nom_i8.
Proof.
  unfold nom_i8. apply calm_bind; [eauto 6 with nom|]. intros sg. apply calm_bind; [eauto with nom|].
  intros ds s. destruct ds; [congruence|].
  destruct sg as [[]|]; destruct (_ <=? _); congruence.
Qed.
#[export] Hint Resolve tails_nom_i8 calm_nom_i8 : nom.
Lemma line_ending_POk s r a : line_ending s = POk r a <-> exists eol, (eol = [LF] \/ eol = CRLF) /\ s = eol ++ r /\ a = eol.
Proof.
  unfold line_ending, palt. destruct (tag [LF] s) as [r0 a0| |] eqn:H.
  - apply tag_POk in H as [-> ->]. split.
    + intros [= <- <-]. eauto.
    + intros (eol & [-> | ->] & E & ->); unfold CRLF, CR, LF in *; cbn in E; congruence.
  - rewrite tag_POk. split.
    + intros [-> ->]. eauto.
    + intros (eol & [-> | ->] & -> & ->); auto. rewrite tag_app in H. congruence.
  - now apply calm_tag in H.
Qed.
