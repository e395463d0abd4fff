(** * The unit tests of the crate, run on the model.

    One Example per [#[test]] of /repo/src that is not about the files of /repo/tests
    (those are run by conformance/run.py), with the same inputs and the same expected
    results; the macros are given their tokens. The zone is one hour east of UTC (the
    tests are run in CET, and none depends on the season); an f32 is given in
    millionths. [now] is a fixed day. These are tests of the model, not proofs. *)
From Verif Require Import Base Env Chrono Nom Types Ser Parser Derive Components Iter Macros Generator Tokens.

Fixpoint trim0 (n : nat) (x : Z) (k : nat) : str := (* the [k] decimals of [x], the last zeros left out *)
  match n with O => [] | S n => if x mod 10 =? 0 then trim0 n (x / 10) (k - 1) else let s := show_int x in repeat 48 (k - length s) ++ s end.
Definition show6 (x : Z) : str :=
  let a := Z.abs x in (if x <? 0 then [45] else []) ++ show_int (a / 1000000) ++ (if a mod 1000000 =? 0 then [] else [46] ++ trim0 7 (a mod 1000000) 6).
Definition show1 (x : Z) : str := let a := Z.abs x in (if x <? 0 then [45] else []) ++ show_int (a / 1000000) ++ [46] ++ show_int (a mod 1000000 / 100000).
Fixpoint digits (s : str) (n : Z) : str * Z := match s with c :: r => if (48 <=? c) && (c <=? 57) then digits r (10 * n + c - 48) else (s, n) | [] => ([], n) end.
Definition parse6 (s : str) : option (str * Z) :=
  let (r, n) := digits s 0 in
  match r with
  | 46 :: r => let (r', m) := digits r 0 in Some (r', n * 1000000 + m * 10 ^ (6 - Z.of_nat (length r - length r')))
  | _ => Some (r, n * 1000000) end.
#[local] Instance test_env : Env := {| tz_offset := fun _ => 3600; tz_local := fun _ => MSingle 3600; f32_show := show6; f32_show1 := show1; f32_parse := parse6;
  upper_nonascii := fun c => [c] |}.
(** The texts of the tests have CR LF at the end of each line. *)
Definition crlf (s : str) : str := flat_map (fun c => if c =? 10 then [13; 10] else [c]) s.
Definition nothing : str -> option typed := fun _ => None.
Definition written {T} (S : serialize T) (v : option (outcome T)) : option (outcome str) := option_map (fun o => obind o (ser_ical S)) v.
Definition builds {T} (v : option (outcome T)) : bool := match v with Some (Ok _) => true | _ => false end.
(** valarm.rs:169-172 *)
Definition attach_value : text := mk_text [(lit "FMTTYPE", lit "audio/basic")] (lit "ftp://example.com/pub/sounds/bell-01.aud").
(** src/components/vjournal.rs:57-89 *)
Example vjournal_ser : written ser_vjournal (macro_call nothing SJournal ([XIdent (lit "uid") (EInt 0); XColon; XExpr (EStr (lit "19970901T130000Z-123405@example.com")); XComma; XIdent (lit "dtstart") (EInt 0); XColon; XExpr (EStr (lit "19970317")); XComma; XIdent (lit "dtstamp") (EInt 0); XColon; XExpr (EStr (lit "19970901T130000Z")); XComma; XIdent (lit "summary") (EInt 0); XColon; XExpr (EStr (lit "Staff meeting minutes")); XComma; XIdent (lit "description") (EInt 0); XColon; XBracket [XExpr (EStr (lit "1. Staff meeting: Participants include Joe, Lisa, and Bob. Aurora project plans were reviewed. There is currently no budget reserves for this project. Lisa will escalate to management. Next meeting on Tuesday.
2. Telephone Conference: ABC Corp. sales representative called to discuss new printer. Promised to get us a demo by Friday.
3. Henry Miller (Handsoff Insurance): Car was totaled by tree. Is looking into a loaner car. 555-2323 (tel)."))]; XComma]))
  = Some (Ok (crlf (lit "BEGIN:VJOURNAL
DTSTAMP:19970901T130000Z
UID:19970901T130000Z-123405@example.com
DTSTART;VALUE=DATE:19970317
SUMMARY:Staff meeting minutes
DESCRIPTION:1. Staff meeting: Participants include Joe\, Lisa\, and Bob. Au
 rora project plans were reviewed. There is currently no budget reserves for
  this project. Lisa will escalate to management. Next meeting on Tuesday.\n
 2. Telephone Conference: ABC Corp. sales representative called to discuss n
 ew printer. Promised to get us a demo by Friday.\n3. Henry Miller (Handsoff
  Insurance): Car was totaled by tree. Is looking into a loaner car. 555-232
 3 (tel).
END:VJOURNAL
"))).
Proof. vm_compute. reflexivity. Qed.
(** src/components/vjournal.rs:92-127 *)
Example vjournal_macros : builds (macro_call nothing SJournal ([XIdent (lit "dtstamp") (EInt 0); XColon; XExpr (EStr (lit "19970901T130000Z")); XComma; XIdent (lit "uid") (EInt 0); XColon; XExpr (EStr (lit "19970901T130000Z-123405@example.com")); XComma; XIdent (lit "class") (EInt 0); XColon; XExpr (EVariant (VClass (Custom (lit "Custom")))); XComma; XIdent (lit "created") (EInt 0); XColon; XExpr (EStr (lit "19970901T130000Z")); XComma; XIdent (lit "dtstart") (EInt 0); XColon; XExpr (EStr (lit "19970317")); XComma; XIdent (lit "last_modified") (EInt 0); XColon; XExpr (EStr (lit "19970901T130000Z")); XComma; XIdent (lit "organizer") (EInt 0); XColon; XExpr (EStr (lit "")); XComma; XIdent (lit "recurid") (EInt 0); XColon; XExpr (EStr (lit "19970317")); XComma; XIdent (lit "sequence") (EInt 0); XColon; XExpr (EInt 0); XComma; XIdent (lit "status") (EInt 0); XColon; XIdent (lit "NeedsAction") (EVariant (VStatus NeedsAction)); XComma; XIdent (lit "summary") (EInt 0); XColon; XExpr (EStr (lit "Staff meeting minutes")); XComma; XIdent (lit "url") (EInt 0); XColon; XExpr (EStr (lit "")); XComma; XIdent (lit "rrule") (EInt 0); XColon; XBrace [XIdent (lit "freq") (EInt 0); XColon; XIdent (lit "Yearly") (EVariant (VFreq Yearly)); XComma; XIdent (lit "interval") (EInt 0); XColon; XExpr (EInt 1); XComma]; XComma; XIdent (lit "attach") (EVal (existT den TText attach_value)); XColon; XBracket [XExpr (EStr (lit ""))]; XComma; XIdent (lit "attendee") (EInt 0); XColon; XBracket [XExpr (EStr (lit ""))]; XComma; XIdent (lit "categories") (EInt 0); XColon; XBracket [XExpr (EStr (lit ""))]; XComma; XIdent (lit "comment") (EInt 0); XColon; XBracket [XExpr (EStr (lit ""))]; XComma; XIdent (lit "contact") (EInt 0); XColon; XBracket [XExpr (EStr (lit ""))]; XComma; XIdent (lit "description") (EInt 0); XColon; XBracket [XExpr (EStr (lit ""))]; XComma; XIdent (lit "exdate") (EInt 0); XColon; XBracket [XExpr (EStr (lit "19970317"))]; XComma; XIdent (lit "related_to") (EInt 0); XColon; XBracket [XExpr (EStr (lit ""))]; XComma; XIdent (lit "rstatus") (EInt 0); XColon; XBracket [XBrace [XIdent (lit "statcode") (EInt 0); XColon; XExpr (EFloat (2000000)); XComma; XIdent (lit "statdesc") (EInt 0); XColon; XExpr (EStr (lit "Success")); XComma]]; XComma])) = true.
Proof. vm_compute. reflexivity. Qed.
(** src/components/vevent.rs:67-99 *)
Example vevent_ser : written ser_vevent (macro_call nothing SEvent ([XIdent (lit "created") (EInt 0); XColon; XExpr (EStr (lit "20170209T192358")); XComma; XIdent (lit "dtstamp") (EInt 0); XColon; XExpr (EStr (lit "20170209T192358")); XComma; XIdent (lit "last_modified") (EInt 0); XColon; XExpr (EStr (lit "20170209T192358")); XComma; XIdent (lit "uid") (EInt 0); XColon; XExpr (EStr (lit "5UILHLI7RI6K2IDRAQX7O")); XComma; XIdent (lit "summary") (EInt 0); XColon; XExpr (EStr (lit "Vers")); XComma; XIdent (lit "class") (EInt 0); XColon; XIdent (lit "Public") (EVariant (VClass Public)); XComma; XIdent (lit "status") (EInt 0); XColon; XIdent (lit "Confirmed") (EVariant (VStatus Confirmed)); XComma; XIdent (lit "dtstart") (EInt 0); XColon; XExpr (EStr (lit "20170209")); XComma; XIdent (lit "dtend") (EInt 0); XColon; XExpr (EStr (lit "20170210")); XComma]))
  = Some (Ok (crlf (lit "BEGIN:VEVENT
DTSTAMP:20170209T192358
UID:5UILHLI7RI6K2IDRAQX7O
DTSTART;VALUE=DATE:20170209
CLASS:PUBLIC
CREATED:20170209T192358
LAST-MODIFIED:20170209T192358
STATUS:CONFIRMED
SUMMARY:Vers
DTEND;VALUE=DATE:20170210
END:VEVENT
"))).
Proof. vm_compute. reflexivity. Qed.
(** src/components/vevent.rs:102-152 *)
Example vevent_macros : builds (macro_call nothing SEvent ([XIdent (lit "dtstamp") (EInt 0); XColon; XExpr (EStr (lit "20170209T192358")); XComma; XIdent (lit "uid") (EInt 0); XColon; XExpr (EStr (lit "5UILHLI7RI6K2IDRAQX7O")); XComma; XIdent (lit "dtstart") (EInt 0); XColon; XExpr (EStr (lit "20170209")); XComma; XIdent (lit "class") (EInt 0); XColon; XIdent (lit "Public") (EVariant (VClass Public)); XComma; XIdent (lit "created") (EInt 0); XColon; XExpr (EStr (lit "20170209T192358")); XComma; XIdent (lit "description") (EInt 0); XColon; XExpr (EStr (lit "")); XComma; XIdent (lit "geo") (EInt 0); XColon; XBrace [XIdent (lit "lat") (EInt 0); XColon; XExpr (EFloat (37386013)); XComma; XIdent (lit "lon") (EInt 0); XColon; XExpr (EFloat (-122082930)); XComma]; XComma; XIdent (lit "last_modified") (EInt 0); XColon; XExpr (EStr (lit "20170209T192358")); XComma; XIdent (lit "location") (EInt 0); XColon; XExpr (EStr (lit "")); XComma; XIdent (lit "organizer") (EInt 0); XColon; XExpr (EStr (lit "")); XComma; XIdent (lit "priority") (EInt 0); XColon; XExpr (EInt 1); XComma; XIdent (lit "sequence") (EInt 0); XColon; XExpr (EInt 0); XComma; XIdent (lit "status") (EInt 0); XColon; XIdent (lit "Confirmed") (EVariant (VStatus Confirmed)); XComma; XIdent (lit "summary") (EInt 0); XColon; XExpr (EStr (lit "Vers")); XComma; XIdent (lit "transp") (EInt 0); XColon; XIdent (lit "Transparent") (EVariant (VTransp Transparent)); XComma; XIdent (lit "recurid") (EInt 0); XColon; XExpr (EStr (lit "20170210")); XComma; XIdent (lit "rrule") (EInt 0); XColon; XBrace [XIdent (lit "freq") (EInt 0); XColon; XIdent (lit "Yearly") (EVariant (VFreq Yearly)); XComma; XIdent (lit "interval") (EInt 0); XColon; XExpr (EInt 1); XComma]; XComma; XIdent (lit "dtend") (EInt 0); XColon; XExpr (EStr (lit "20170210")); XComma; XIdent (lit "duration") (EVal (existT den (TOpt TDuration) (Some 0))); XColon; XExpr (EStr (lit "P1Y")); XComma; XIdent (lit "attach") (EVal (existT den TText attach_value)); XColon; XBracket [XExpr (EStr (lit ""))]; XComma; XIdent (lit "attendee") (EInt 0); XColon; XBracket [XExpr (EStr (lit ""))]; XComma; XIdent (lit "categories") (EInt 0); XColon; XBracket [XExpr (EStr (lit ""))]; XComma; XIdent (lit "comment") (EInt 0); XColon; XBracket [XExpr (EStr (lit ""))]; XComma; XIdent (lit "contact") (EInt 0); XColon; XBracket [XExpr (EStr (lit ""))]; XComma; XIdent (lit "exdate") (EInt 0); XColon; XBracket [XExpr (EStr (lit "20170209"))]; XComma; XIdent (lit "rstatus") (EInt 0); XColon; XBracket [XBrace [XIdent (lit "statcode") (EInt 0); XColon; XExpr (EFloat (2000000)); XComma; XIdent (lit "statdesc") (EInt 0); XColon; XExpr (EStr (lit "Success")); XComma]]; XComma; XIdent (lit "related_to") (EInt 0); XColon; XBracket [XExpr (EStr (lit ""))]; XComma; XIdent (lit "resources") (EInt 0); XColon; XBracket [XExpr (EStr (lit ""))]; XComma; XIdent (lit "alarms") (EInt 0); XColon; XBracket []; XComma])) = true.
Proof. vm_compute. reflexivity. Qed.
(** src/components/vtimezone.rs:87-135 *)
Example vtimezone_ser : written ser_vtimezone (macro_call nothing STimezone ([XIdent (lit "tzid") (EInt 0); XColon; XExpr (EStr (lit "America/New_York")); XComma; XIdent (lit "last_modified") (EInt 0); XColon; XExpr (EStr (lit "20050809T050000Z")); XComma; XIdent (lit "tzurl") (EInt 0); XColon; XExpr (EStr (lit "http://zones.example.com/tz/America-New_York.ics")); XComma; XIdent (lit "standard") (EInt 0); XColon; XBracket [XBrace [XIdent (lit "dtstart") (EInt 0); XColon; XExpr (EStr (lit "20071104T020000")); XComma; XIdent (lit "tzoffsetfrom") (EInt 0); XColon; XExpr (EStr (lit "-0400")); XComma; XIdent (lit "tzoffsetto") (EInt 0); XColon; XExpr (EStr (lit "-0500")); XComma; XIdent (lit "tzname") (EInt 0); XColon; XBracket [XExpr (EStr (lit "EST"))]; XComma]; XComma]; XComma; XIdent (lit "daylight") (EInt 0); XColon; XBracket [XBrace [XIdent (lit "dtstart") (EInt 0); XColon; XExpr (EStr (lit "20070311T020000")); XComma; XIdent (lit "tzoffsetfrom") (EInt 0); XColon; XExpr (EStr (lit "-0500")); XComma; XIdent (lit "tzoffsetto") (EInt 0); XColon; XExpr (EStr (lit "-0400")); XComma; XIdent (lit "tzname") (EInt 0); XColon; XBracket [XExpr (EStr (lit "EDT"))]; XComma]; XComma]; XComma]))
  = Some (Ok (crlf (lit "BEGIN:VTIMEZONE
TZID:America/New_York
LAST-MODIFIED:20050809T050000Z
TZURL:http://zones.example.com/tz/America-New_York.ics
BEGIN:STANDARD
DTSTART:20071104T020000
TZOFFSETTO:-0500
TZOFFSETFROM:-0400
TZNAME:EST
END:STANDARD
BEGIN:DAYLIGHT
DTSTART:20070311T020000
TZOFFSETTO:-0400
TZOFFSETFROM:-0500
TZNAME:EDT
END:DAYLIGHT
END:VTIMEZONE
"))).
Proof. vm_compute. reflexivity. Qed.
(** src/components/vtodo.rs:65-93 *)
Example vtodo_ser : written ser_vtodo (macro_call nothing STodo ([XIdent (lit "dtstamp") (EInt 0); XColon; XExpr (EStr (lit "20070313T123432Z")); XComma; XIdent (lit "uid") (EInt 0); XColon; XExpr (EStr (lit "20070313T123432Z-456553@example.com")); XComma; XIdent (lit "due") (EInt 0); XColon; XExpr (EStr (lit "20070501")); XComma; XIdent (lit "summary") (EInt 0); XColon; XExpr (EStr (lit "Submit Quebec Income Tax Return for 2006")); XComma; XIdent (lit "class") (EInt 0); XColon; XIdent (lit "Confidential") (EVariant (VClass Confidential)); XComma; XIdent (lit "categories") (EInt 0); XColon; XBracket [XExpr (EStr (lit "FAMILY")); XComma; XExpr (EStr (lit "FINANCE"))]; XComma; XIdent (lit "status") (EInt 0); XColon; XIdent (lit "NeedsAction") (EVariant (VStatus NeedsAction)); XComma]))
  = Some (Ok (crlf (lit "BEGIN:VTODO
DTSTAMP:20070313T123432Z
UID:20070313T123432Z-456553@example.com
CLASS:CONFIDENTIAL
STATUS:NEEDS-ACTION
SUMMARY:Submit Quebec Income Tax Return for 2006
DUE;VALUE=DATE:20070501
CATEGORIES:FAMILY,FINANCE
END:VTODO
"))).
Proof. vm_compute. reflexivity. Qed.
(** src/components/vtodo.rs:96-143 *)
Example vtodo_macros : builds (macro_call nothing STodo ([XIdent (lit "dtstamp") (EInt 0); XColon; XExpr (EStr (lit "20070313T123432Z")); XComma; XIdent (lit "uid") (EInt 0); XColon; XExpr (EStr (lit "20070313T123432Z-456553@example.com")); XComma; XIdent (lit "class") (EInt 0); XColon; XIdent (lit "Confidential") (EVariant (VClass Confidential)); XComma; XIdent (lit "completed") (EInt 0); XColon; XExpr (EStr (lit "20070313T123432Z")); XComma; XIdent (lit "created") (EInt 0); XColon; XExpr (EStr (lit "20070313T123432Z")); XComma; XIdent (lit "dtstart") (EInt 0); XColon; XExpr (EStr (lit "20070501")); XComma; XIdent (lit "geo") (EInt 0); XColon; XBrace [XIdent (lit "lat") (EInt 0); XColon; XExpr (EFloat (0)); XComma; XIdent (lit "lon") (EInt 0); XColon; XExpr (EFloat (0)); XComma]; XComma; XIdent (lit "last_modified") (EInt 0); XColon; XExpr (EStr (lit "20070313T123432Z")); XComma; XIdent (lit "location") (EInt 0); XColon; XExpr (EStr (lit "")); XComma; XIdent (lit "organizer") (EInt 0); XColon; XExpr (EStr (lit "")); XComma; XIdent (lit "percent_complete") (EInt 0); XColon; XExpr (EInt 100); XComma; XIdent (lit "priority") (EInt 0); XColon; XExpr (EInt 10); XComma; XIdent (lit "recurid") (EInt 0); XColon; XExpr (EStr (lit "20070313T123432Z")); XComma; XIdent (lit "sequence") (EInt 0); XColon; XExpr (EInt 0); XComma; XIdent (lit "status") (EInt 0); XColon; XIdent (lit "NeedsAction") (EVariant (VStatus NeedsAction)); XComma; XIdent (lit "summary") (EInt 0); XColon; XExpr (EStr (lit "")); XComma; XIdent (lit "url") (EInt 0); XColon; XExpr (EStr (lit "")); XComma; XIdent (lit "rrule") (EInt 0); XColon; XBrace [XIdent (lit "freq") (EInt 0); XColon; XIdent (lit "Yearly") (EVariant (VFreq Yearly)); XComma; XIdent (lit "interval") (EInt 0); XColon; XExpr (EInt 1); XComma]; XComma; XIdent (lit "due") (EInt 0); XColon; XExpr (EStr (lit "20070501")); XComma; XIdent (lit "duration") (EVal (existT den (TOpt TDuration) (Some 0))); XColon; XExpr (EStr (lit "-PT10M")); XComma; XIdent (lit "attach") (EVal (existT den TText attach_value)); XColon; XBracket [XExpr (EStr (lit ""))]; XComma; XIdent (lit "attendee") (EInt 0); XColon; XBracket [XExpr (EStr (lit ""))]; XComma; XIdent (lit "categories") (EInt 0); XColon; XBracket [XExpr (EStr (lit "FAMILY")); XComma; XExpr (EStr (lit "FINANCE"))]; XComma; XIdent (lit "comment") (EInt 0); XColon; XBracket [XExpr (EStr (lit ""))]; XComma; XIdent (lit "contact") (EInt 0); XColon; XBracket [XExpr (EStr (lit ""))]; XComma; XIdent (lit "exdate") (EInt 0); XColon; XBracket [XExpr (EStr (lit "20070501"))]; XComma; XIdent (lit "rstatus") (EInt 0); XColon; XBracket [XBrace [XIdent (lit "statcode") (EInt 0); XColon; XExpr (EFloat (2800000)); XComma; XIdent (lit "statdesc") (EInt 0); XColon; XExpr (EStr (lit "Success")); XComma; XIdent (lit "extdata") (EInt 0); XColon; XExpr (EStr (lit "")); XComma]]; XComma; XIdent (lit "related_to") (EInt 0); XColon; XBracket [XExpr (EStr (lit ""))]; XComma; XIdent (lit "resources") (EInt 0); XColon; XBracket [XExpr (EStr (lit ""))]; XComma])) = true.
Proof. vm_compute. reflexivity. Qed.
(** src/components/valarm.rs:168-197 *)
Example valarm_ser : written ser_valarm (valarm_call nothing ([XAt; XIdent (lit "audio") (EInt 0); XComma; XIdent (lit "trigger") (EInt 0); XColon; XExpr (EStr (lit "19970317T133000Z")); XComma; XIdent (lit "duration") (EVal (existT den (TOpt TDuration) (Some 0))); XColon; XExpr (EStr (lit "P15DT")); XComma; XIdent (lit "repeat") (EInt 0); XColon; XExpr (EInt 4); XComma; XIdent (lit "attach") (EVal (existT den TText attach_value)); XColon; XBracket [XIdent (lit "attach") (EVal (existT den TText attach_value))]; XComma]))
  = Some (Ok (crlf (lit "BEGIN:VALARM
ACTION:AUDIO
TRIGGER;VALUE=DATE-TIME:19970317T133000Z
DURATION:PT1296000S
REPEAT:4
ATTACH;FMTTYPE=audio/basic:ftp://example.com/pub/sounds/bell-01.aud
END:VALARM
"))).
Proof. vm_compute. reflexivity. Qed.
(** valarm.rs:201 *)
Definition duration_scope : str -> option typed := fun n => if str_eqb n (lit "duration") then Some (existT den (TOpt TDuration) (Some 0)) else None.
(** src/components/valarm.rs:200-233; the second without a comma after the description *)
Example valarm_macros : builds (valarm_call duration_scope ([XAt; XIdent (lit "audio") (EInt 0); XComma; XIdent (lit "trigger") (EInt 0); XColon; XExpr (EStr (lit "19970317T133000Z")); XComma; XIdent (lit "duration") (EVal (existT den (TOpt TDuration) (Some 0))); XComma; XIdent (lit "repeat") (EInt 0); XColon; XExpr (EInt 4); XComma; XIdent (lit "attach") (EVal (existT den TText attach_value)); XColon; XBracket [XExpr (EStr (lit "ftp://example.com/pub/sounds/bell-01.aud"))]; XComma])) = true /\
  builds (valarm_call duration_scope ([XAt; XIdent (lit "display") (EInt 0); XComma; XIdent (lit "trigger") (EInt 0); XColon; XExpr (EStr (lit "-PT30M")); XComma; XIdent (lit "description") (EInt 0); XColon; XExpr (EStr (lit "Breakfast meeting with executive team at 8:30 AM EST.")); XIdent (lit "duration") (EVal (existT den (TOpt TDuration) (Some 0))); XComma; XIdent (lit "repeat") (EInt 0); XColon; XExpr (EInt 2); XComma])) = true /\
  builds (valarm_call duration_scope ([XAt; XIdent (lit "email") (EInt 0); XComma; XIdent (lit "trigger") (EInt 0); XColon; XExpr (EStr (lit "-P2D")); XComma; XIdent (lit "description") (EInt 0); XColon; XExpr (EStr (lit "A draft agenda needs to be sent out to the attendees
to the weekly managers meeting (MGR-LIST). Attached is a
pointer the document template for the agenda file.")); XComma; XIdent (lit "summary") (EInt 0); XColon; XExpr (EStr (lit "*** REMINDER: SEND AGENDA FOR WEEKLY STAFF MEETING ***")); XComma; XIdent (lit "attendee") (EInt 0); XColon; XBracket [XExpr (EStr (lit "mailto:john_doe@example.com"))]; XComma; XIdent (lit "duration") (EVal (existT den (TOpt TDuration) (Some 0))); XComma; XIdent (lit "repeat") (EInt 0); XColon; XExpr (EInt 2); XComma; XIdent (lit "attach") (EVal (existT den TText attach_value)); XColon; XBracket [XExpr (EStr (lit "http://example.com/templates/agenda.doc"))]; XComma])) = true.
Proof. repeat split; vm_compute; reflexivity. Qed.
(** src/components/vcalendar.rs:43-77 *)
Example vcalendar_ser : written ser_vcalendar (macro_call nothing SCalendar ([XIdent (lit "version") (EInt 0); XColon; XExpr (EStr (lit "2.0")); XComma; XIdent (lit "prodid") (EInt 0); XColon; XExpr (EStr (lit "-//hacksw/handcal//NONSGML v1.0//EN")); XComma; XIdent (lit "events") (EInt 0); XColon; XBracket [XBrace [XIdent (lit "uid") (EInt 0); XColon; XExpr (EStr (lit "19970610T172345Z-AF23B2@example.com")); XComma; XIdent (lit "dtstamp") (EInt 0); XColon; XExpr (EStr (lit "19970610T172345Z")); XComma; XIdent (lit "dtstart") (EInt 0); XColon; XExpr (EStr (lit "19970714T170000Z")); XComma; XIdent (lit "dtend") (EInt 0); XColon; XExpr (EStr (lit "19970715T040000Z")); XComma; XIdent (lit "summary") (EInt 0); XColon; XExpr (EStr (lit "Bastille Day Party")); XComma]]; XComma]))
  = Some (Ok (crlf (lit "BEGIN:VCALENDAR
PRODID:-//hacksw/handcal//NONSGML v1.0//EN
VERSION:2.0
BEGIN:VEVENT
DTSTAMP:19970610T172345Z
UID:19970610T172345Z-AF23B2@example.com
DTSTART:19970714T170000Z
SUMMARY:Bastille Day Party
DTEND:19970715T040000Z
END:VEVENT
END:VCALENDAR
"))).
Proof. vm_compute. reflexivity. Qed.
(** src/components/vfreebusy.rs:38-64 *)
Example vfreebusy_ser : written ser_vfreebusy (macro_call nothing SFreebusy ([XIdent (lit "dtstamp") (EInt 0); XColon; XExpr (EStr (lit "19970901T083000Z")); XComma; XIdent (lit "uid") (EInt 0); XColon; XExpr (EStr (lit "19970901T082949Z-FA43EF@example.com")); XComma; XIdent (lit "organizer") (EInt 0); XColon; XExpr (EStr (lit "mailto:jane_doe@example.com")); XComma; XIdent (lit "attendee") (EInt 0); XColon; XBracket [XExpr (EStr (lit "mailto:john_public@example.com"))]; XComma; XIdent (lit "dtstart") (EInt 0); XColon; XExpr (EStr (lit "19971015T050000Z")); XComma; XIdent (lit "dtend") (EInt 0); XColon; XExpr (EStr (lit "19971016T050000Z")); XComma]))
  = Some (Ok (crlf (lit "BEGIN:VFREEBUSY
DTSTAMP:19970901T083000Z
UID:19970901T082949Z-FA43EF@example.com
DTSTART:19971015T050000Z
DTEND:19971016T050000Z
ORGANIZER:mailto:jane_doe@example.com
ATTENDEE:mailto:john_public@example.com
END:VFREEBUSY
"))).
Proof. vm_compute. reflexivity. Qed.
(** src/components/vfreebusy.rs:67-81 *)
Example vfreebusy_macros : builds (macro_call nothing SFreebusy ([XIdent (lit "dtstamp") (EInt 0); XColon; XExpr (EStr (lit "19970901T083000Z")); XComma; XIdent (lit "uid") (EInt 0); XColon; XExpr (EStr (lit "19970901T082949Z-FA43EF@example.com")); XComma; XIdent (lit "contact") (EInt 0); XColon; XExpr (EStr (lit "")); XComma; XIdent (lit "dtstart") (EInt 0); XColon; XExpr (EStr (lit "19971015T050000Z")); XComma; XIdent (lit "dtend") (EInt 0); XColon; XExpr (EStr (lit "19971016T050000Z")); XComma; XIdent (lit "organizer") (EInt 0); XColon; XExpr (EStr (lit "mailto:jane_doe@example.com")); XComma; XIdent (lit "url") (EInt 0); XColon; XExpr (EStr (lit "")); XComma; XIdent (lit "attendee") (EInt 0); XColon; XBracket [XExpr (EStr (lit "mailto:john_public@example.com"))]; XComma; XIdent (lit "comment") (EInt 0); XColon; XBracket [XExpr (EStr (lit ""))]; XComma])) = true.
Proof. vm_compute. reflexivity. Qed.
(** src/ser.rs:173-187 *)
Example long_line : ser_field ser_text (lit "DESCRIPTION") (text_of_str (lit "This is a long description with more than 75 characteres that exists on a long line."))
  = Ok (crlf (lit "DESCRIPTION:This is a long description with more than 75 characteres that e
 xists on a long line.
")).
Proof. repeat split; vm_compute; reflexivity. Qed.
(** src/ser.rs:190-197 *)
Example fixed_offset : s_ical ser_offset 3600 = Ok (lit "+0100").
Proof. repeat split; vm_compute; reflexivity. Qed.
(** src/lib.rs:188-199 *)
Example test_content_line : p_content_line (lit "VERSION:2.0
PRODID:-//Nextcloud calendar v1.5.0") = POk (lit "PRODID:-//Nextcloud calendar v1.5.0") (mk_cl (lit "VERSION") [] (lit "2.0")).
Proof. repeat split; vm_compute; reflexivity. Qed.
(** src/lib.rs:207-219 *)
Example test_param : p_content_lines (lit "CREATED;VALUE=DATE-TIME:20141009T141617Z" ++ CRLF)
  = POk [] [mk_cl (lit "CREATED") [(lit "VALUE", lit "DATE-TIME")] (lit "20141009T141617Z")].
Proof. repeat split; vm_compute; reflexivity. Qed.
(** src/lib.rs:222-239 *)
Example test_content_lines : p_content_lines (lit "VERSION:2.0
CALSCALE:GREGORIAN

") = POk [LF] [mk_cl (lit "VERSION") [] (lit "2.0"); mk_cl (lit "CALSCALE") [] (lit "GREGORIAN")].
Proof. repeat split; vm_compute; reflexivity. Qed.
(** src/parser/misc.rs:49-97 *)
Example rstatus : parse_rstatus (cl_of_str (lit "2.0;Success")) = Ok (mk_rs 2000000 (lit "Success") None) /\
  parse_rstatus (cl_of_str (lit "3.1;Invalid property value;DTSTART:96-Apr-01")) = Ok (mk_rs 3100000 (lit "Invalid property value") (Some (lit "DTSTART:96-Apr-01"))) /\
  parse_rstatus (cl_of_str (lit "2.8; Success\, repeating event ignored. Scheduled" ++ CRLF ++ lit " as a single event.;RRULE:FREQ=WEEKLY\;INTERVAL=2")) = Ok (mk_rs 2800000 (lit " Success\, repeating event ignored. Scheduled" ++ CRLF ++ lit " as a single event.") (Some (lit "RRULE:FREQ=WEEKLY\;INTERVAL=2"))) /\
  parse_rstatus (cl_of_str (lit "4.1;Event conflict.  Date-time is busy.")) = Ok (mk_rs 4100000 (lit "Event conflict.  Date-time is busy.") None) /\
  parse_rstatus (cl_of_str (lit "3.7;Invalid calendar user;ATTENDEE:" ++ CRLF ++ lit " mailto:jsmith@example.com")) = Ok (mk_rs 3700000 (lit "Invalid calendar user") (Some (lit "ATTENDEE:" ++ CRLF ++ lit " mailto:jsmith@example.com"))).
Proof. repeat split; vm_compute; reflexivity. Qed.
(** src/properties/geo.rs:45-54 *)
Example geo_ser : ser_ical ser_geo (mk_geo 37386013 (-122082930)) = Ok (lit "37.386013;-122.08293").
Proof. repeat split; vm_compute; reflexivity. Qed.
(** src/properties/recur.rs:306-314 *)
Example ser_recur_ : ser_ical ser_recur recur_default = Ok (lit "FREQ=DAILY;INTERVAL=0") /\
  ser_ical ser_recur (mk_recur Daily None None 0 [] [] [1] [] [] [] [] [] [] None) = Ok (lit "FREQ=DAILY;INTERVAL=0;BYHOUR=1").
Proof. repeat split; vm_compute; reflexivity. Qed.
(** src/properties/recur.rs:317-321 *)
Example ser_freq_ : ser_ical ser_freq Yearly = Ok (lit "YEARLY").
Proof. repeat split; vm_compute; reflexivity. Qed.
(** src/properties/recur.rs:324-333 *)
Example ser_weekday_num : ser_ical ser_wdn (mk_wdn Sunday (Some (-1))) = Ok (lit "-1SU").
Proof. repeat split; vm_compute; reflexivity. Qed.
(** src/properties/recur.rs:336-340 *)
Example ser_weekday_ : ser_ical ser_weekday Monday = Ok (lit "MO").
Proof. repeat split; vm_compute; reflexivity. Qed.
(** src/properties/period.rs:130-147 *)
Example period_ser : ser_ical ser_period (StartEnd datetime_default datetime_default) = Ok (lit "19700101T000000/19700101T000000") /\
  (let* h := td_hours 5 in ser_ical ser_period (StartDur datetime_default h)) = Ok (lit "19700101T000000/PT18000S").
Proof. repeat split; vm_compute; reflexivity. Qed.
(** src/properties/text.rs:81-107 *)
Example text_ser : ser_ical ser_text (text_of_str (lit "Project XYZ ; Final Review
Conference Room - 3B
Come Prepared.")) = Ok (lit "Project XYZ \; Final Review\nConference Room - 3B\nCome Prepared.") /\
  ser_ical ser_text (mk_text [(lit "TZID", lit "Europe/Paris"); (lit "VALUE", lit "DATE-TIME")] (lit "20150219T190000"))
  = Ok (lit "TZID=Europe/Paris;VALUE=DATE-TIME:20150219T190000").
Proof. repeat split; vm_compute; reflexivity. Qed.
(** src/properties/class.rs:62-70 *)
Example class_ser : ser_ical ser_class Public = Ok (lit "PUBLIC") /\ ser_ical ser_class (Custom (lit "Custom")) = Ok (lit "CUSTOM").
Proof. repeat split; vm_compute; reflexivity. Qed.
(** src/properties/uri.rs:70-87 *)
Example uri_ser : ser_ical ser_uri (uri_of_str (lit "http://tzurl.org/zoneinfo/Pacific/Fiji")) = Ok (lit "http://tzurl.org/zoneinfo/Pacific/Fiji") /\
  ser_ical ser_uri (mk_uri [(lit "RSVP", lit "TRUE")] (lit "mailto:someone@example.com")) = Ok (lit "RSVP=TRUE:mailto:someone@example.com").
Proof. repeat split; vm_compute; reflexivity. Qed.
(** src/properties/time_transparency.rs:59-70 *)
Example transp_ser : ser_ical ser_transp Transparent = Ok (lit "TRANSPARENT") /\ ser_ical ser_transp Opaque = Ok (lit "OPAQUE").
Proof. repeat split; vm_compute; reflexivity. Qed.
(** src/properties/date.rs:287-301 *)
Example date_ser : ser_ical ser_date date_default = Ok (lit "19700101T000000") /\ ser_ical ser_date (DDate 0) = Ok (lit "VALUE=DATE:19700101") /\
  ser_ical ser_datetime (Naive epoch) = Ok (lit "19700101T000000") /\ ser_ical ser_datetime (Local epoch) = Ok (lit "19700101T010000Z").
Proof. repeat split; vm_compute; reflexivity. Qed.
(** src/properties/rdate.rs:49-70 *)
Example rdate_ser : (let* l := ocollect date_of_str [lit "19970101"; lit "19970120"; lit "19970217"; lit "19970421"; lit "19970526"; lit "19970704"; lit "19970901"; lit "19971014"; lit "19971128"; lit "19971129"; lit "19971225"] in ser_ical ser_rdate (RDates l))
  = Ok (lit "VALUE=DATE:19970101,19970120,19970217,19970421,19970526,19970704,19970901,19971014,19971128,19971129,19971225").
Proof. repeat split; vm_compute; reflexivity. Qed.
(** src/properties/trigger.rs:57-68 *)
Example trigger_ser : (let* t := datetime_of_str (lit "19980101T050000Z") in ser_ical ser_trigger (TrDateTime t)) = Ok (lit "VALUE=DATE-TIME:19980101T050000Z") /\
  (let* t := td_days (-15) in ser_ical ser_trigger (TrDuration t)) = Ok (lit "VALUE=DURATION:-PT1296000S").
Proof. repeat split; vm_compute; reflexivity. Qed.
(** src/properties/request_status.rs:55-74 *)
Example rs_ser : ser_ical ser_rs (mk_rs 2000000 (lit "Success") None) = Ok (lit "2.0;Success") /\
  ser_ical ser_rs (mk_rs 2800000 (lit "Success, repeating event ignored. Scheduled as a single event.") (Some (lit "RRULE:FREQ=WEEKLY;INTERVAL=2")))
  = Ok (lit "2.8;Success\, repeating event ignored. Scheduled as a single event.;RRULE:FREQ=WEEKLY\;INTERVAL=2").
Proof. repeat split; vm_compute; reflexivity. Qed.
(** src/properties/status.rs:83-90 *)
Example status_ser : ser_ical ser_status NeedsAction = Ok (lit "NEEDS-ACTION").
Proof. repeat split; vm_compute; reflexivity. Qed.

(** ** src/iter.rs *)
(** The items of an iterator until it ends; [None] if it panics or does not end within the bound. *)
Fixpoint run {St A} (next : nat -> St -> ires St A) (n : nat) (s : St) : option (list A) :=
  match n with
  | O => None
  | S m => match next n s with IYield a s' => option_map (cons a) (run next m s') | IDone _ => Some [] | _ => None end
  end.
Definition from {T A} (v : option (outcome T)) (f : T -> option A) : option A := match v with Some (Ok x) => f x | _ => None end.
(** 1 February 2024: a day near the start, so that the run is short *)
Definition now_day : date := DDate (days_of_ymd 2024 2 1).
Definition now_time : date := DDateTime (Local (mk_ndt (days_of_ymd 1972 6 15) 36000 0)).
(** src/iter.rs:181-198 *)
Example iter_at : from (macro_call nothing SEvent ([XIdent (lit "dtstart") (EInt 0); XColon; XExpr (EStr (lit "20240101")); XComma; XIdent (lit "dtend") (EInt 0); XColon; XExpr (EStr (lit "20240101")); XComma; XIdent (lit "rrule") (EInt 0); XColon; XBrace [XIdent (lit "freq") (EInt 0); XColon; XIdent (lit "Daily") (EVariant (VFreq Daily)); XComma; XIdent (lit "interval") (EInt 0); XColon; XExpr (EInt 1); XComma]])) (fun v =>
    match at_end now_day with
    | Ok e => match between_next rec_vevent now_day e 100 (between_init v) with IYield x _ => Some (ev_dtstart x, ev_dtend x) | _ => None end
    | _ => None end)
  = Some (now_day, Some now_day).
Proof. repeat split; vm_compute; reflexivity. Qed.
(** src/iter.rs:201-214 *)
Example iter_count : option_map (@length _) (from (macro_call nothing SEvent ([XIdent (lit "rrule") (EInt 0); XColon; XBrace [XIdent (lit "freq") (EInt 0); XColon; XIdent (lit "Weekly") (EVariant (VFreq Weekly)); XComma; XIdent (lit "interval") (EInt 0); XColon; XExpr (EInt 1); XComma; XIdent (lit "count") (EInt 0); XColon; XExpr (EInt 10); XComma]])) (run (recur_next rec_vevent) 20)) = Some 10%nat.
Proof. repeat split; vm_compute; reflexivity. Qed.
(** src/iter.rs:217-232 *)
Example iter_after : from (macro_call nothing SEvent ([XIdent (lit "rrule") (EInt 0); XColon; XBrace [XIdent (lit "freq") (EInt 0); XColon; XIdent (lit "Monthly") (EVariant (VFreq Monthly)); XComma; XIdent (lit "interval") (EInt 0); XColon; XExpr (EInt 1); XComma; XIdent (lit "until") (EInt 0); XColon; XIdent (lit "now") (EVal (existT den TDate now_time)); XComma]])) (fun v => run (after_next rec_vevent now_time) 100 (after_init v)) = Some [].
Proof. repeat split; vm_compute; reflexivity. Qed.
(** src/iter.rs:235-251 *)
Example iter_between : option_map (@length _) (from (macro_call nothing SEvent ([XIdent (lit "rrule") (EInt 0); XColon; XBrace [XIdent (lit "freq") (EInt 0); XColon; XIdent (lit "Yearly") (EVariant (VFreq Yearly)); XComma; XIdent (lit "interval") (EInt 0); XColon; XExpr (EInt 10); XComma]])) (fun v =>
    run (between_next rec_vevent (DDateTime (Local (mk_ndt (days_of_ymd 2024 6 15) 36000 0))) (DDateTime (Local (mk_ndt (days_of_ymd 2044 6 15) 36000 0)))) 100 (between_init v))) = Some 2%nat.
Proof. repeat split; vm_compute; reflexivity. Qed.
(** src/iter.rs:254-269 *)
Example iter_exdate : option_map (fun l => option_map (fun x => Ok (ev_dtstart x)) (nth_error l 1)) (from (macro_call nothing SEvent ([XIdent (lit "dtstart") (EInt 0); XColon; XExpr (EStr (lit "20240101")); XComma; XIdent (lit "rrule") (EInt 0); XColon; XBrace [XIdent (lit "freq") (EInt 0); XColon; XIdent (lit "Yearly") (EVariant (VFreq Yearly)); XComma; XIdent (lit "interval") (EInt 0); XColon; XExpr (EInt 1); XComma; XIdent (lit "count") (EInt 0); XColon; XExpr (EInt 10); XComma]; XComma; XIdent (lit "exdate") (EInt 0); XColon; XBracket [XExpr (EStr (lit "20250101"))]; XComma])) (run (recur_next rec_vevent) 20))
  = Some (Some (date_of_str (lit "20260101"))).
Proof. repeat split; vm_compute; reflexivity. Qed.
(** src/iter.rs:272-284 *)
Example iter_vjournal : option_map (@length _) (from (macro_call nothing SJournal ([XIdent (lit "rrule") (EInt 0); XColon; XBrace [XIdent (lit "freq") (EInt 0); XColon; XIdent (lit "Daily") (EVariant (VFreq Daily)); XComma; XIdent (lit "count") (EInt 0); XColon; XExpr (EInt 2); XComma]])) (run (recur_next rec_vjournal) 20)) = Some 2%nat.
Proof. repeat split; vm_compute; reflexivity. Qed.
(** src/iter.rs:287-300 *)
Example iter_vtodo : option_map (@length _) (from (macro_call nothing STodo ([XIdent (lit "dtstart") (EInt 0); XColon; XExpr (EStr (lit "20240101")); XComma; XIdent (lit "rrule") (EInt 0); XColon; XBrace [XIdent (lit "freq") (EInt 0); XColon; XIdent (lit "Daily") (EVariant (VFreq Daily)); XComma; XIdent (lit "count") (EInt 0); XColon; XExpr (EInt 2); XComma]])) (run (recur_next rec_vtodo) 20)) = Some 2%nat.
Proof. repeat split; vm_compute; reflexivity. Qed.
