#!/usr/bin/env python3
"""Writes rocq/theories/ConformFiles.v: each file of /repo/tests, what the crate's own tests
expect of it (src/lib.rs:239-277), and an Example that the model agrees. Reads /repo only."""
import os, datetime, zoneinfo, glob
KINDS = dict(alarms='valarm', calendars='vcalendar', events='vevent', freebusy='vfreebusy', journals='vjournal', timezones='vtimezone', todos='vtodo')

def coq(s):  # a str: runs of ASCII as literals, the rest as code points
    out, run = [], ''
    def flush():
        nonlocal run
        if run: out.append('lit "%s"' % run.replace('"', '""')); run = ''
    for c in s:
        if c == '\r' or ord(c) >= 127:
            flush(); out.append('[%d]' % ord(c))
        else: run += c
    flush()
    return ' ++ '.join(out) if out else '[]'

def transitions():
    z = zoneinfo.ZoneInfo('CET'); t = datetime.datetime(1970, 1, 1, tzinfo=datetime.timezone.utc); res = []
    off = lambda t: int(t.astimezone(z).utcoffset().total_seconds())
    cur = off(t)
    first = cur
    while t.year < 2040:
        n = t + datetime.timedelta(hours=1)
        if off(n) != cur:
            cur = off(n); res.append((int(n.timestamp()), cur))
        t = n
    return first, res

PRELUDE = '''From Verif Require Import Base Env Chrono Nom Types Ser Parser Derive Components Debug.
Definition cet_changes : list (Z * Z) := [%s].
Definition cet_offset (t : Z) : Z := fold_left (fun o c => if fst c <=? t then snd c else o) cet_changes %d.
Definition cet_local (l : Z) : mapped :=
  let late := cet_offset (l - 3600) in let early := cet_offset (l - 7200) in
  let a := late =? 3600 in let b := early =? 7200 in
  if a && b then MAmbiguous 7200 3600 else if a then MSingle 3600 else if b then MSingle 7200 else MNone.
(** The f32s of the tests: hundredths. *)
Fixpoint digits (s : str) (n : Z) : str * Z := match s with c :: r => if (48 <=? c) && (c <=? 57) then digits r (10 * n + c - 48) else (s, n) | [] => ([], n) end.
Definition f32p (s : str) : option (str * Z) :=
  let (neg, s) := match s with 45 :: r => (true, r) | _ => (false, s) end in
  let (r, n) := digits s 0 in
  match r with 46 :: r => let (r', m) := digits r 0 in
    let k := Z.of_nat (length r - length r') in
    let v := n * 100 + m * 100 / 10 ^ k in Some (r', if neg then - v else v)
  | _ => Some (r, if neg then - (n * 100) else n * 100) end.
Definition f32d (x : Z) : str :=
  let a := Z.abs x in (if x <? 0 then [45] else []) ++ show_int (a / 100) ++ [46] ++
  (if a mod 10 =? 0 then show_int (a mod 100 / 10) else padded 2 (a mod 100)).
#[export] Instance cet : Env := {| tz_offset := cet_offset; tz_local := cet_local; f32_show := f32d; f32_show1 := f32d; f32_parse := f32p; upper_nonascii := fun c => [c] |}.
Definition is_err {A} (r : outcome A) : bool := match r with Err _ => true | _ => false end.
Definition shows (r : option str) (e : str) : bool := match r with Some s => str_eqb s e | None => false end.
'''


def coq2(s):
    if s.count('\n') == s.count('\r\n') == s.count('\r') and '\r' in s: return 'crlf (%s)' % coq(s.replace('\r\n', '\n'))
    return coq(s)
first,tr=transitions()
out='''(** * The files of /repo/tests, read by the model (src/lib.rs:239-277): the Debug text of
    what is read is the one the crate expects, or an error is given where the crate
    expects one. The zone is CET, as in .github/workflows/ci.yml. Generated by
    conformance/gen.py; these are tests of the model, not proofs. *)
'''+(PRELUDE%('; '.join('(%d, %d)'%x for x in tr),first)).replace('#[export]','#[local]')
out+='''(** Files with CR LF at the end of each line. *)
Definition crlf (s : str) : str := flat_map (fun c => if c =? 10 then [13; 10] else [c]) s.
'''
for i,f in enumerate(sorted(glob.glob('/repo/tests/*/*.ics'))):
    kind=KINDS[os.path.basename(os.path.dirname(f))]
    s=open(f,newline='').read(); o=f[:-4]+'.out'
    g=kind if kind in ('valarm','vtimezone') else kind+' f32d'
    out+='(** %s *)\n'%f[len('/repo/'):]
    if os.path.exists(o): out+='Example file%02d : shows (debug_result (g_%s) (%s_of_str (%s))) (%s) = true.\n'%(i+1,g,kind,coq2(s),coq2(open(o,newline='').read()))
    else: out+='Example file%02d : is_err (%s_of_str (%s)) = true.\n'%(i+1,kind,coq2(s))
    out+='Proof. vm_compute. reflexivity. Qed.\n'
open(os.path.join(os.path.dirname(os.path.abspath(__file__)), '..', 'rocq', 'theories', 'ConformFiles.v'),'w').write(out)
