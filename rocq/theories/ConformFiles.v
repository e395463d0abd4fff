(** * The files of /repo/tests, read by the model (src/lib.rs:239-277): the Debug text of
    what is read is the one the crate expects, or an error is given where the crate
    expects one. The zone is CET, as in .github/workflows/ci.yml. Generated by
    conformance/gen.py; these are tests of the model, not proofs. *)
From Verif Require Import Base Env Chrono Nom Types Ser Parser Derive Components Debug.
Definition cet_changes : list (Z * Z) := [(228877200, 7200); (243997200, 3600); (260326800, 7200); (276051600, 3600); (291776400, 7200); (307501200, 3600); (323830800, 7200); (338950800, 3600); (354675600, 7200); (370400400, 3600); (386125200, 7200); (401850000, 3600); (417574800, 7200); (433299600, 3600); (449024400, 7200); (465354000, 3600); (481078800, 7200); (496803600, 3600); (512528400, 7200); (528253200, 3600); (543978000, 7200); (559702800, 3600); (575427600, 7200); (591152400, 3600); (606877200, 7200); (622602000, 3600); (638326800, 7200); (654656400, 3600); (670381200, 7200); (686106000, 3600); (701830800, 7200); (717555600, 3600); (733280400, 7200); (749005200, 3600); (764730000, 7200); (780454800, 3600); (796179600, 7200); (811904400, 3600); (828234000, 7200); (846378000, 3600); (859683600, 7200); (877827600, 3600); (891133200, 7200); (909277200, 3600); (922582800, 7200); (941331600, 3600); (954032400, 7200); (972781200, 3600); (985482000, 7200); (1004230800, 3600); (1017536400, 7200); (1035680400, 3600); (1048986000, 7200); (1067130000, 3600); (1080435600, 7200); (1099184400, 3600); (1111885200, 7200); (1130634000, 3600); (1143334800, 7200); (1162083600, 3600); (1174784400, 7200); (1193533200, 3600); (1206838800, 7200); (1224982800, 3600); (1238288400, 7200); (1256432400, 3600); (1269738000, 7200); (1288486800, 3600); (1301187600, 7200); (1319936400, 3600); (1332637200, 7200); (1351386000, 3600); (1364691600, 7200); (1382835600, 3600); (1396141200, 7200); (1414285200, 3600); (1427590800, 7200); (1445734800, 3600); (1459040400, 7200); (1477789200, 3600); (1490490000, 7200); (1509238800, 3600); (1521939600, 7200); (1540688400, 3600); (1553994000, 7200); (1572138000, 3600); (1585443600, 7200); (1603587600, 3600); (1616893200, 7200); (1635642000, 3600); (1648342800, 7200); (1667091600, 3600); (1679792400, 7200); (1698541200, 3600); (1711846800, 7200); (1729990800, 3600); (1743296400, 7200); (1761440400, 3600); (1774746000, 7200); (1792890000, 3600); (1806195600, 7200); (1824944400, 3600); (1837645200, 7200); (1856394000, 3600); (1869094800, 7200); (1887843600, 3600); (1901149200, 7200); (1919293200, 3600); (1932598800, 7200); (1950742800, 3600); (1964048400, 7200); (1982797200, 3600); (1995498000, 7200); (2014246800, 3600); (2026947600, 7200); (2045696400, 3600); (2058397200, 7200); (2077146000, 3600); (2090451600, 7200); (2108595600, 3600); (2121901200, 7200); (2140045200, 3600); (2153350800, 7200); (2172099600, 3600); (2184800400, 7200); (2203549200, 3600)].
Definition cet_offset (t : Z) : Z := fold_left (fun o c => if fst c <=? t then snd c else o) cet_changes 3600.
Definition cet_local (l : Z) : mapped :=
  let late := cet_offset (l - 3600) in let early := cet_offset (l - 7200) in
  let a := late =? 3600 in let b := early =? 7200 in
  if a && b then MAmbiguous 7200 3600 else if a then MSingle 3600 else if b then MSingle 7200 else MNone.
(** The f32s of the tests: hundredths. *)
Fixpoint digits (s : str) (n : Z) : str * Z := match s with c :: r => if (48 <=? c) && (c <=? 57) then digits r (10 * n + c - 48) else (s, n) | [] => ([], n) end.
Definition f32p (s : str) : option (str * Z) :=
  let (neg, s) := match s with 45 :: r => (true, r) | _ => (false, s) end in
  let (r, n) := digits s 0 in
  match r with 46 :: r => let (r', m) := digits r 0 in
    let k := Z.of_nat (length r - length r') in
    let v := n * 100 + m * 100 / 10 ^ k in Some (r', if neg then - v else v)
  | _ => Some (r, if neg then - (n * 100) else n * 100) end.
Definition f32d (x : Z) : str :=
  let a := Z.abs x in (if x <? 0 then [45] else []) ++ show_int (a / 100) ++ [46] ++
  (if a mod 10 =? 0 then show_int (a mod 100 / 10) else padded 2 (a mod 100)).
#[local] Instance cet : Env := {| tz_offset := cet_offset; tz_local := cet_local; f32_show := f32d; f32_show1 := f32d; f32_parse := f32p; upper_nonascii := fun c => [c] |}.
Definition is_err {A} (r : outcome A) : bool := match r with Err _ => true | _ => false end.
Definition shows (r : option str) (e : str) : bool := match r with Some s => str_eqb s e | None => false end.
(** Files with CR LF at the end of each line. *)
Definition crlf (s : str) : str := flat_map (fun c => if c =? 10 then [13; 10] else [c]) s.
(** tests/alarms/1.ics *)
Example file01 : shows (debug_result (g_valarm) (valarm_of_str (crlf (lit "BEGIN:VALARM
TRIGGER;VALUE=DATE-TIME:19970317T133000Z
REPEAT:4
DURATION:PT15M
ACTION:AUDIO
ATTACH;FMTTYPE=audio/basic:ftp://example.com/pub/
 sounds/bell-01.aud
END:VALARM
")))) (lit "Ok(
    Audio(
        Audio {
            action: Text {
                params: {},
                text: ""AUDIO"",
            },
            trigger: DateTime(
                Local(
                    1997-03-17T14:30:00+01:00,
                ),
            ),
            duration: Some(
                TimeDelta {
                    secs: 900,
                    nanos: 0,
                },
            ),
            repeat: Some(
                4,
            ),
            attach: [
                Text {
                    params: {
                        ""FMTTYPE"": ""audio/basic"",
                    },
                    text: ""ftp://example.com/pub/sounds/bell-01.aud"",
                },
            ],
            x_prop: {},
            iana_prop: {},
        },
    ),
)
") = true.
Proof. vm_compute. reflexivity. Qed.
(** tests/alarms/2.ics *)
Example file02 : shows (debug_result (g_valarm) (valarm_of_str (crlf (lit "BEGIN:VALARM
TRIGGER:-PT30M
REPEAT:2
DURATION:PT15M
ACTION:DISPLAY
DESCRIPTION:Breakfast meeting with executive\n
 team at 8:30 AM EST.
END:VALARM
")))) (lit "Ok(
    Display(
        Display {
            action: Text {
                params: {},
                text: ""DISPLAY"",
            },
            trigger: Duration(
                TimeDelta {
                    secs: -1800,
                    nanos: 0,
                },
            ),
            description: Text {
                params: {},
                text: ""Breakfast meeting with executive\\nteam at 8:30 AM EST."",
            },
            duration: Some(
                TimeDelta {
                    secs: 900,
                    nanos: 0,
                },
            ),
            repeat: Some(
                2,
            ),
            x_prop: {},
            iana_prop: {},
        },
    ),
)
") = true.
Proof. vm_compute. reflexivity. Qed.
(** tests/calendars/1.ics *)
Example file03 : shows (debug_result (g_vcalendar f32d) (vcalendar_of_str (crlf (lit "BEGIN:VCALENDAR
PRODID:-//Nextcloud calendar v1.5.0
VERSION:2.0
CALSCALE:GREGORIAN
BEGIN:VEVENT
CREATED:20170209T192358
DTSTAMP:20170209T192358
LAST-MODIFIED:20170209T192358
UID:5UILHLI7RI6K2IDRAQX7O
SUMMARY:Vers
CLASS:PUBLIC
STATUS:CONFIRMED
DTSTART;VALUE=DATE-TIME;TZID=Europe/Paris:20150219T190000
DTEND;VALUE=DATE:20170210
END:VEVENT
BEGIN:VTIMEZONE
TZID:Europe/Berlin
X-LIC-LOCATION:Europe/Berlin
BEGIN:DAYLIGHT
TZOFFSETFROM:+0100
TZOFFSETTO:+0200
TZNAME:CEST
DTSTART:19700329T020000
RRULE:FREQ=YEARLY;BYDAY=-1SU;BYMONTH=3
END:DAYLIGHT
BEGIN:STANDARD
TZOFFSETFROM:+0200
TZOFFSETTO:+0100
TZNAME:CET
DTSTART:19701025T030000
RRULE:FREQ=YEARLY;BYDAY=-1SU;BYMONTH=10
END:STANDARD
END:VTIMEZONE
END:VCALENDAR
")))) (lit "Ok(
    VCalendar {
        prodid: Text {
            params: {},
            text: ""-//Nextcloud calendar v1.5.0"",
        },
        version: Text {
            params: {},
            text: ""2.0"",
        },
        calscale: Some(
            Text {
                params: {},
                text: ""GREGORIAN"",
            },
        ),
        method: None,
        alarms: [],
        events: [
            VEvent {
                dtstamp: Naive(
                    2017-02-09T19:23:58,
                ),
                uid: Text {
                    params: {},
                    text: ""5UILHLI7RI6K2IDRAQX7O"",
                },
                dtstart: DateTime(
                    Naive(
                        2015-02-19T19:00:00,
                    ),
                ),
                class: Some(
                    Public,
                ),
                created: Some(
                    Naive(
                        2017-02-09T19:23:58,
                    ),
                ),
                description: None,
                geo: None,
                last_modified: Some(
                    Naive(
                        2017-02-09T19:23:58,
                    ),
                ),
                location: None,
                organizer: None,
                priority: None,
                sequence: None,
                status: Some(
                    Confirmed,
                ),
                summary: Some(
                    Text {
                        params: {},
                        text: ""Vers"",
                    },
                ),
                transp: None,
                url: None,
                recurid: None,
                rrule: None,
                dtend: Some(
                    Date(
                        2017-02-10,
                    ),
                ),
                duration: None,
                attach: [],
                attendee: [],
                categories: [],
                comment: [],
                contact: [],
                exdate: [],
                rstatus: [],
                related_to: [],
                resources: [],
                rdate: [],
                alarms: [],
                x_prop: {},
                iana_prop: {},
            },
        ],
        freebusy: [],
        journals: [],
        todo: [],
        timezones: [
            VTimezone {
                tzid: Text {
                    params: {},
                    text: ""Europe/Berlin"",
                },
                last_modified: None,
                tzurl: None,
                standard: [
                    Standard {
                        dtstart: DateTime(
                            Naive(
                                1970-10-25T03:00:00,
                            ),
                        ),
                        tzoffsetto: +01:00,
                        tzoffsetfrom: +02:00,
                        rrule: Some(
                            Recur {
                                freq: Yearly,
                                until: None,
                                count: None,
                                interval: 1,
                                by_second: [],
                                by_minute: [],
                                by_hour: [],
                                by_day: [
                                    WeekdayNum {
                                        weekday: Sunday,
                                        ord: Some(
                                            -1,
                                        ),
                                    },
                                ],
                                by_monthday: [],
                                by_yearday: [],
                                by_weekno: [],
                                by_month: [
                                    10,
                                ],
                                by_setpos: [],
                                wkst: None,
                            },
                        ),
                        comment: [],
                        rdate: [],
                        tzname: [
                            Text {
                                params: {},
                                text: ""CET"",
                            },
                        ],
                        x_prop: {},
                        iana_prop: {},
                    },
                ],
                daylight: [
                    Daylight {
                        dtstart: DateTime(
                            Naive(
                                1970-03-29T02:00:00,
                            ),
                        ),
                        tzoffsetto: +02:00,
                        tzoffsetfrom: +01:00,
                        rrule: Some(
                            Recur {
                                freq: Yearly,
                                until: None,
                                count: None,
                                interval: 1,
                                by_second: [],
                                by_minute: [],
                                by_hour: [],
                                by_day: [
                                    WeekdayNum {
                                        weekday: Sunday,
                                        ord: Some(
                                            -1,
                                        ),
                                    },
                                ],
                                by_monthday: [],
                                by_yearday: [],
                                by_weekno: [],
                                by_month: [
                                    3,
                                ],
                                by_setpos: [],
                                wkst: None,
                            },
                        ),
                        comment: [],
                        rdate: [],
                        tzname: [
                            Text {
                                params: {},
                                text: ""CEST"",
                            },
                        ],
                        x_prop: {},
                        iana_prop: {},
                    },
                ],
                x_prop: {
                    ""X-LIC-LOCATION"": ContentLine {
                        params: {},
                        value: ""Europe/Berlin"",
                    },
                },
                iana_prop: {},
            },
        ],
        x_prop: {},
        iana_prop: {},
    },
)
") = true.
Proof. vm_compute. reflexivity. Qed.
(** tests/calendars/2.ics *)
Example file04 : shows (debug_result (g_vcalendar f32d) (vcalendar_of_str (crlf (lit "BEGIN:VCALENDAR
VERSION:2.0
PRODID:ownCloud Calendar
CALSCALE:GREGORIAN
BEGIN:VEVENT
UID:7e27d9fc69
DTSTAMP:20150717T101959Z
CREATED:20150717T101959Z
LAST-MODIFIED:20150717T101959Z
SUMMARY:Garage
DTSTART;VALUE=DATE:20150722
DTEND;VALUE=DATE:20150723
LOCATION:
DESCRIPTION:
CATEGORIES:
END:VEVENT
END:VCALENDAR
")))) (lit "Ok(
    VCalendar {
        prodid: Text {
            params: {},
            text: ""ownCloud Calendar"",
        },
        version: Text {
            params: {},
            text: ""2.0"",
        },
        calscale: Some(
            Text {
                params: {},
                text: ""GREGORIAN"",
            },
        ),
        method: None,
        alarms: [],
        events: [
            VEvent {
                dtstamp: Local(
                    2015-07-17T12:19:59+02:00,
                ),
                uid: Text {
                    params: {},
                    text: ""7e27d9fc69"",
                },
                dtstart: Date(
                    2015-07-22,
                ),
                class: None,
                created: Some(
                    Local(
                        2015-07-17T12:19:59+02:00,
                    ),
                ),
                description: Some(
                    Text {
                        params: {},
                        text: """",
                    },
                ),
                geo: None,
                last_modified: Some(
                    Local(
                        2015-07-17T12:19:59+02:00,
                    ),
                ),
                location: Some(
                    Text {
                        params: {},
                        text: """",
                    },
                ),
                organizer: None,
                priority: None,
                sequence: None,
                status: None,
                summary: Some(
                    Text {
                        params: {},
                        text: ""Garage"",
                    },
                ),
                transp: None,
                url: None,
                recurid: None,
                rrule: None,
                dtend: Some(
                    Date(
                        2015-07-23,
                    ),
                ),
                duration: None,
                attach: [],
                attendee: [],
                categories: [
                    Text {
                        params: {},
                        text: """",
                    },
                ],
                comment: [],
                contact: [],
                exdate: [],
                rstatus: [],
                related_to: [],
                resources: [],
                rdate: [],
                alarms: [],
                x_prop: {},
                iana_prop: {},
            },
        ],
        freebusy: [],
        journals: [],
        todo: [],
        timezones: [],
        x_prop: {},
        iana_prop: {},
    },
)
") = true.
Proof. vm_compute. reflexivity. Qed.
(** tests/calendars/3.ics *)
Example file05 : shows (debug_result (g_vcalendar f32d) (vcalendar_of_str (crlf (lit "BEGIN:VCALENDAR
VERSION:2.0
PRODID:+//IDN bitfire.at//DAVdroid/1.0.8 ical4android ical4j/2.x
BEGIN:VTODO
DTSTAMP:20160515T164310Z
UID:10442264-14b1-47cf-9263-69447c0e0d7f
CREATED:20160515T094801Z
LAST-MODIFIED:20160515T094801Z
SUMMARY:the science of good cooking +book
LOCATION:
STATUS:COMPLETED
PERCENT-COMPLETE:100
COMPLETED:20160515T192354
END:VTODO
END:VCALENDAR
")))) (lit "Ok(
    VCalendar {
        prodid: Text {
            params: {},
            text: ""+//IDN bitfire.at//DAVdroid/1.0.8 ical4android ical4j/2.x"",
        },
        version: Text {
            params: {},
            text: ""2.0"",
        },
        calscale: None,
        method: None,
        alarms: [],
        events: [],
        freebusy: [],
        journals: [],
        todo: [
            VTodo {
                dtstamp: Local(
                    2016-05-15T18:43:10+02:00,
                ),
                uid: Text {
                    params: {},
                    text: ""10442264-14b1-47cf-9263-69447c0e0d7f"",
                },
                class: None,
                completed: Some(
                    Naive(
                        2016-05-15T19:23:54,
                    ),
                ),
                created: Some(
                    Local(
                        2016-05-15T11:48:01+02:00,
                    ),
                ),
                dtstart: None,
                geo: None,
                last_modified: Some(
                    Local(
                        2016-05-15T11:48:01+02:00,
                    ),
                ),
                location: Some(
                    Text {
                        params: {},
                        text: """",
                    },
                ),
                organizer: None,
                percent_complete: Some(
                    100,
                ),
                priority: None,
                recurid: None,
                sequence: None,
                status: Some(
                    Completed,
                ),
                summary: Some(
                    Text {
                        params: {},
                        text: ""the science of good cooking +book"",
                    },
                ),
                url: None,
                rrule: None,
                due: None,
                duration: None,
                attach: [],
                attendee: [],
                categories: [],
                comment: [],
                contact: [],
                exdate: [],
                rstatus: [],
                related_to: [],
                resources: [],
                rdate: [],
                x_prop: {},
                iana_prop: {},
            },
        ],
        timezones: [],
        x_prop: {},
        iana_prop: {},
    },
)
") = true.
Proof. vm_compute. reflexivity. Qed.
(** tests/calendars/4.ics *)
Example file06 : shows (debug_result (g_vcalendar f32d) (vcalendar_of_str (crlf (lit "BEGIN:VCALENDAR
PRODID:-//Nextcloud calendar v1.5.0
VERSION:2.0
BEGIN:VTIMEZONE
TZID:Europe/Paris
X-LIC-LOCATION:Europe/Paris
BEGIN:DAYLIGHT
TZOFFSETFROM:+0100
TZOFFSETTO:+0200
TZNAME:CEST
DTSTART:19700329T020000
RRULE:FREQ=YEARLY;BYDAY=-1SU;BYMONTH=3
END:DAYLIGHT
BEGIN:STANDARD
TZOFFSETFROM:+0200
TZOFFSETTO:+0100
TZNAME:CET
DTSTART:19701025T030000
RRULE:FREQ=YEARLY;BYDAY=-1SU;BYMONTH=10
END:STANDARD
END:VTIMEZONE
BEGIN:VEVENT
CREATED:20130503T053745Z
LAST-MODIFIED:20140709T182046Z
DTSTAMP:20140709T182046Z
UID:1686cebb-a816-4657-8d5e-3b2ce0c0589c
SUMMARY:Assembl" ++ [233] ++ lit "e G" ++ [233] ++ lit "n" ++ [233] ++ lit "rale Ordinaire 2013
DTSTART;TZID=Europe/Paris:20130516T193000
DTEND;TZID=Europe/Paris:20130516T203000
DESCRIPTION:Bonjour\,\n\nApr" ++ [232] ++ lit "s un peu de retard\, nous sommes pr" ++ [234] ++ lit "ts pour
  organiser l\'Assembl" ++ [233] ++ lit "e\nG" ++ [233] ++ lit "n" ++ [233] ++ lit "rale Ordinaire.\n\nEn tant que membre de l\'
 association Faimaison\, vous " ++ [234] ++ lit "tes convoqu" ++ [233] ++ lit " " ++ [224] ++ lit "\nl\'assembl" ++ [233] ++ lit "e G" ++ [233] ++ lit "n" ++ [233] ++ lit "rale O
 rdinaire.\n\nCelle-ci aura lieu le 16 Mai " ++ [224] ++ lit " B17 (17\, rue Paul Bellamy)
 " ++ [224] ++ lit " 19h30.\n\nComme expliqu" ++ [233] ++ lit " dans les derniers " ++ [233] ++ lit "changes\, il y aura un re
 nouvellement\nde bureau avec changement de pr" ++ [233] ++ lit "sident.\n\nL\'ordre du jour
 sera donc le suivant :\n\n- Bilan Moral\n- Bilan Financier\n- Renouvelleme
 nt du bureau.\n- Projets en cours\n\nSi vous ne pouvez pas participer vous
  pouvez donner procuration " ++ [224] ++ lit " un\nmembre de votre choix.\nPour cela\, envo
 yez un mail " ++ [224] ++ lit " bureau@faimaison.net en indiquant la personne\nmandat" ++ [233] ++ lit "e.\n
 \n" ++ [192] ++ lit " tr" ++ [232] ++ lit "s bientot ! \n\n-- \nGuillaume Dout" ++ [233] ++ lit "
CLASS:PUBLIC
TRANSP:OPAQUE
END:VEVENT
END:VCALENDAR
")))) (lit "Ok(
    VCalendar {
        prodid: Text {
            params: {},
            text: ""-//Nextcloud calendar v1.5.0"",
        },
        version: Text {
            params: {},
            text: ""2.0"",
        },
        calscale: None,
        method: None,
        alarms: [],
        events: [
            VEvent {
                dtstamp: Local(
                    2014-07-09T20:20:46+02:00,
                ),
                uid: Text {
                    params: {},
                    text: ""1686cebb-a816-4657-8d5e-3b2ce0c0589c"",
                },
                dtstart: DateTime(
                    Naive(
                        2013-05-16T19:30:00,
                    ),
                ),
                class: Some(
                    Public,
                ),
                created: Some(
                    Local(
                        2013-05-03T07:37:45+02:00,
                    ),
                ),
                description: Some(
                    Text {
                        params: {},
                        text: ""Bonjour\\,\\n\\nApr" ++ [232] ++ lit "s un peu de retard\\, nous sommes pr" ++ [234] ++ lit "ts pour organiser l\\'Assembl" ++ [233] ++ lit "e\\nG" ++ [233] ++ lit "n" ++ [233] ++ lit "rale Ordinaire.\\n\\nEn tant que membre de l\\'association Faimaison\\, vous " ++ [234] ++ lit "tes convoqu" ++ [233] ++ lit " " ++ [224] ++ lit "\\nl\\'assembl" ++ [233] ++ lit "e G" ++ [233] ++ lit "n" ++ [233] ++ lit "rale Ordinaire.\\n\\nCelle-ci aura lieu le 16 Mai " ++ [224] ++ lit " B17 (17\\, rue Paul Bellamy)" ++ [224] ++ lit " 19h30.\\n\\nComme expliqu" ++ [233] ++ lit " dans les derniers " ++ [233] ++ lit "changes\\, il y aura un renouvellement\\nde bureau avec changement de pr" ++ [233] ++ lit "sident.\\n\\nL\\'ordre du joursera donc le suivant :\\n\\n- Bilan Moral\\n- Bilan Financier\\n- Renouvellement du bureau.\\n- Projets en cours\\n\\nSi vous ne pouvez pas participer vous pouvez donner procuration " ++ [224] ++ lit " un\\nmembre de votre choix.\\nPour cela\\, envoyez un mail " ++ [224] ++ lit " bureau@faimaison.net en indiquant la personne\\nmandat" ++ [233] ++ lit "e.\\n\\n" ++ [192] ++ lit " tr" ++ [232] ++ lit "s bientot ! \\n\\n-- \\nGuillaume Dout" ++ [233] ++ lit """,
                    },
                ),
                geo: None,
                last_modified: Some(
                    Local(
                        2014-07-09T20:20:46+02:00,
                    ),
                ),
                location: None,
                organizer: None,
                priority: None,
                sequence: None,
                status: None,
                summary: Some(
                    Text {
                        params: {},
                        text: ""Assembl" ++ [233] ++ lit "e G" ++ [233] ++ lit "n" ++ [233] ++ lit "rale Ordinaire 2013"",
                    },
                ),
                transp: Some(
                    Opaque,
                ),
                url: None,
                recurid: None,
                rrule: None,
                dtend: Some(
                    DateTime(
                        Naive(
                            2013-05-16T20:30:00,
                        ),
                    ),
                ),
                duration: None,
                attach: [],
                attendee: [],
                categories: [],
                comment: [],
                contact: [],
                exdate: [],
                rstatus: [],
                related_to: [],
                resources: [],
                rdate: [],
                alarms: [],
                x_prop: {},
                iana_prop: {},
            },
        ],
        freebusy: [],
        journals: [],
        todo: [],
        timezones: [
            VTimezone {
                tzid: Text {
                    params: {},
                    text: ""Europe/Paris"",
                },
                last_modified: None,
                tzurl: None,
                standard: [
                    Standard {
                        dtstart: DateTime(
                            Naive(
                                1970-10-25T03:00:00,
                            ),
                        ),
                        tzoffsetto: +01:00,
                        tzoffsetfrom: +02:00,
                        rrule: Some(
                            Recur {
                                freq: Yearly,
                                until: None,
                                count: None,
                                interval: 1,
                                by_second: [],
                                by_minute: [],
                                by_hour: [],
                                by_day: [
                                    WeekdayNum {
                                        weekday: Sunday,
                                        ord: Some(
                                            -1,
                                        ),
                                    },
                                ],
                                by_monthday: [],
                                by_yearday: [],
                                by_weekno: [],
                                by_month: [
                                    10,
                                ],
                                by_setpos: [],
                                wkst: None,
                            },
                        ),
                        comment: [],
                        rdate: [],
                        tzname: [
                            Text {
                                params: {},
                                text: ""CET"",
                            },
                        ],
                        x_prop: {},
                        iana_prop: {},
                    },
                ],
                daylight: [
                    Daylight {
                        dtstart: DateTime(
                            Naive(
                                1970-03-29T02:00:00,
                            ),
                        ),
                        tzoffsetto: +02:00,
                        tzoffsetfrom: +01:00,
                        rrule: Some(
                            Recur {
                                freq: Yearly,
                                until: None,
                                count: None,
                                interval: 1,
                                by_second: [],
                                by_minute: [],
                                by_hour: [],
                                by_day: [
                                    WeekdayNum {
                                        weekday: Sunday,
                                        ord: Some(
                                            -1,
                                        ),
                                    },
                                ],
                                by_monthday: [],
                                by_yearday: [],
                                by_weekno: [],
                                by_month: [
                                    3,
                                ],
                                by_setpos: [],
                                wkst: None,
                            },
                        ),
                        comment: [],
                        rdate: [],
                        tzname: [
                            Text {
                                params: {},
                                text: ""CEST"",
                            },
                        ],
                        x_prop: {},
                        iana_prop: {},
                    },
                ],
                x_prop: {
                    ""X-LIC-LOCATION"": ContentLine {
                        params: {},
                        value: ""Europe/Paris"",
                    },
                },
                iana_prop: {},
            },
        ],
        x_prop: {},
        iana_prop: {},
    },
)
") = true.
Proof. vm_compute. reflexivity. Qed.
(** tests/calendars/america_new_york.ics *)
Example file07 : shows (debug_result (g_vcalendar f32d) (vcalendar_of_str (crlf (lit "BEGIN:VCALENDAR
VERSION:2.0
PRODID:collective/icalendar
BEGIN:VTIMEZONE
TZID:custom_America/New_York
LAST-MODIFIED:20050809T050000Z
BEGIN:DAYLIGHT
DTSTART:19670430T020000
RRULE:FREQ=YEARLY;BYMONTH=4;BYDAY=-1SU;UNTIL=19730429T070000Z
TZOFFSETFROM:-0500
TZOFFSETTO:-0400
TZNAME:EDT
END:DAYLIGHT
BEGIN:STANDARD
DTSTART:19671029T020000
RRULE:FREQ=YEARLY;BYMONTH=10;BYDAY=-1SU;UNTIL=20061029T060000Z
TZOFFSETFROM:-0400
TZOFFSETTO:-0500
TZNAME:EST
END:STANDARD
BEGIN:DAYLIGHT
DTSTART:19740106T020000
RDATE:19750223T020000
TZOFFSETFROM:-0500
TZOFFSETTO:-0400
TZNAME:EDT
END:DAYLIGHT
BEGIN:DAYLIGHT
DTSTART:19760425T020000
RRULE:FREQ=YEARLY;BYMONTH=4;BYDAY=-1SU;UNTIL=19860427T070000Z
TZOFFSETFROM:-0500
TZOFFSETTO:-0400
TZNAME:EDT
END:DAYLIGHT
BEGIN:DAYLIGHT
DTSTART:19870405T020000
RRULE:FREQ=YEARLY;BYMONTH=4;BYDAY=1SU;UNTIL=20060402T070000Z
TZOFFSETFROM:-0500
TZOFFSETTO:-0400
TZNAME:EDT
END:DAYLIGHT
BEGIN:DAYLIGHT
DTSTART:20070311T020000
RRULE:FREQ=YEARLY;BYMONTH=3;BYDAY=2SU
TZOFFSETFROM:-0500
TZOFFSETTO:-0400
TZNAME:EDT
END:DAYLIGHT
BEGIN:STANDARD
DTSTART:20071104T020000
RRULE:FREQ=YEARLY;BYMONTH=11;BYDAY=1SU
TZOFFSETFROM:-0400
TZOFFSETTO:-0500
TZNAME:EST
END:STANDARD
END:VTIMEZONE
BEGIN:VEVENT
DTSTAMP:20071104T020000
DTSTART:20071104T020000
UID:noend123
DTSTART;TZID=custom_America/New_York;VALUE=DATE-TIME:20140829T080000
DTSTART;TZID=custom_America/New_York;VALUE=DATE-TIME:20140829T100000
SUMMARY:an event with a custom tz name
END:VEVENT
END:VCALENDAR
")))) (lit "Ok(
    VCalendar {
        prodid: Text {
            params: {},
            text: ""collective/icalendar"",
        },
        version: Text {
            params: {},
            text: ""2.0"",
        },
        calscale: None,
        method: None,
        alarms: [],
        events: [
            VEvent {
                dtstamp: Naive(
                    2007-11-04T02:00:00,
                ),
                uid: Text {
                    params: {},
                    text: ""noend123"",
                },
                dtstart: DateTime(
                    Naive(
                        2014-08-29T10:00:00,
                    ),
                ),
                class: None,
                created: None,
                description: None,
                geo: None,
                last_modified: None,
                location: None,
                organizer: None,
                priority: None,
                sequence: None,
                status: None,
                summary: Some(
                    Text {
                        params: {},
                        text: ""an event with a custom tz name"",
                    },
                ),
                transp: None,
                url: None,
                recurid: None,
                rrule: None,
                dtend: None,
                duration: None,
                attach: [],
                attendee: [],
                categories: [],
                comment: [],
                contact: [],
                exdate: [],
                rstatus: [],
                related_to: [],
                resources: [],
                rdate: [],
                alarms: [],
                x_prop: {},
                iana_prop: {},
            },
        ],
        freebusy: [],
        journals: [],
        todo: [],
        timezones: [
            VTimezone {
                tzid: Text {
                    params: {},
                    text: ""custom_America/New_York"",
                },
                last_modified: Some(
                    Local(
                        2005-08-09T07:00:00+02:00,
                    ),
                ),
                tzurl: None,
                standard: [
                    Standard {
                        dtstart: DateTime(
                            Naive(
                                1967-10-29T02:00:00,
                            ),
                        ),
                        tzoffsetto: -05:00,
                        tzoffsetfrom: -04:00,
                        rrule: Some(
                            Recur {
                                freq: Yearly,
                                until: Some(
                                    DateTime(
                                        Local(
                                            2006-10-29T07:00:00+01:00,
                                        ),
                                    ),
                                ),
                                count: None,
                                interval: 1,
                                by_second: [],
                                by_minute: [],
                                by_hour: [],
                                by_day: [
                                    WeekdayNum {
                                        weekday: Sunday,
                                        ord: Some(
                                            -1,
                                        ),
                                    },
                                ],
                                by_monthday: [],
                                by_yearday: [],
                                by_weekno: [],
                                by_month: [
                                    10,
                                ],
                                by_setpos: [],
                                wkst: None,
                            },
                        ),
                        comment: [],
                        rdate: [],
                        tzname: [
                            Text {
                                params: {},
                                text: ""EST"",
                            },
                        ],
                        x_prop: {},
                        iana_prop: {},
                    },
                    Standard {
                        dtstart: DateTime(
                            Naive(
                                2007-11-04T02:00:00,
                            ),
                        ),
                        tzoffsetto: -05:00,
                        tzoffsetfrom: -04:00,
                        rrule: Some(
                            Recur {
                                freq: Yearly,
                                until: None,
                                count: None,
                                interval: 1,
                                by_second: [],
                                by_minute: [],
                                by_hour: [],
                                by_day: [
                                    WeekdayNum {
                                        weekday: Sunday,
                                        ord: Some(
                                            1,
                                        ),
                                    },
                                ],
                                by_monthday: [],
                                by_yearday: [],
                                by_weekno: [],
                                by_month: [
                                    11,
                                ],
                                by_setpos: [],
                                wkst: None,
                            },
                        ),
                        comment: [],
                        rdate: [],
                        tzname: [
                            Text {
                                params: {},
                                text: ""EST"",
                            },
                        ],
                        x_prop: {},
                        iana_prop: {},
                    },
                ],
                daylight: [
                    Daylight {
                        dtstart: DateTime(
                            Naive(
                                1967-04-30T02:00:00,
                            ),
                        ),
                        tzoffsetto: -04:00,
                        tzoffsetfrom: -05:00,
                        rrule: Some(
                            Recur {
                                freq: Yearly,
                                until: Some(
                                    DateTime(
                                        Local(
                                            1973-04-29T08:00:00+01:00,
                                        ),
                                    ),
                                ),
                                count: None,
                                interval: 1,
                                by_second: [],
                                by_minute: [],
                                by_hour: [],
                                by_day: [
                                    WeekdayNum {
                                        weekday: Sunday,
                                        ord: Some(
                                            -1,
                                        ),
                                    },
                                ],
                                by_monthday: [],
                                by_yearday: [],
                                by_weekno: [],
                                by_month: [
                                    4,
                                ],
                                by_setpos: [],
                                wkst: None,
                            },
                        ),
                        comment: [],
                        rdate: [],
                        tzname: [
                            Text {
                                params: {},
                                text: ""EDT"",
                            },
                        ],
                        x_prop: {},
                        iana_prop: {},
                    },
                    Daylight {
                        dtstart: DateTime(
                            Naive(
                                1974-01-06T02:00:00,
                            ),
                        ),
                        tzoffsetto: -04:00,
                        tzoffsetfrom: -05:00,
                        rrule: None,
                        comment: [],
                        rdate: [
                            Date(
                                [
                                    DateTime(
                                        Naive(
                                            1975-02-23T02:00:00,
                                        ),
                                    ),
                                ],
                            ),
                        ],
                        tzname: [
                            Text {
                                params: {},
                                text: ""EDT"",
                            },
                        ],
                        x_prop: {},
                        iana_prop: {},
                    },
                    Daylight {
                        dtstart: DateTime(
                            Naive(
                                1976-04-25T02:00:00,
                            ),
                        ),
                        tzoffsetto: -04:00,
                        tzoffsetfrom: -05:00,
                        rrule: Some(
                            Recur {
                                freq: Yearly,
                                until: Some(
                                    DateTime(
                                        Local(
                                            1986-04-27T09:00:00+02:00,
                                        ),
                                    ),
                                ),
                                count: None,
                                interval: 1,
                                by_second: [],
                                by_minute: [],
                                by_hour: [],
                                by_day: [
                                    WeekdayNum {
                                        weekday: Sunday,
                                        ord: Some(
                                            -1,
                                        ),
                                    },
                                ],
                                by_monthday: [],
                                by_yearday: [],
                                by_weekno: [],
                                by_month: [
                                    4,
                                ],
                                by_setpos: [],
                                wkst: None,
                            },
                        ),
                        comment: [],
                        rdate: [],
                        tzname: [
                            Text {
                                params: {},
                                text: ""EDT"",
                            },
                        ],
                        x_prop: {},
                        iana_prop: {},
                    },
                    Daylight {
                        dtstart: DateTime(
                            Naive(
                                1987-04-05T02:00:00,
                            ),
                        ),
                        tzoffsetto: -04:00,
                        tzoffsetfrom: -05:00,
                        rrule: Some(
                            Recur {
                                freq: Yearly,
                                until: Some(
                                    DateTime(
                                        Local(
                                            2006-04-02T09:00:00+02:00,
                                        ),
                                    ),
                                ),
                                count: None,
                                interval: 1,
                                by_second: [],
                                by_minute: [],
                                by_hour: [],
                                by_day: [
                                    WeekdayNum {
                                        weekday: Sunday,
                                        ord: Some(
                                            1,
                                        ),
                                    },
                                ],
                                by_monthday: [],
                                by_yearday: [],
                                by_weekno: [],
                                by_month: [
                                    4,
                                ],
                                by_setpos: [],
                                wkst: None,
                            },
                        ),
                        comment: [],
                        rdate: [],
                        tzname: [
                            Text {
                                params: {},
                                text: ""EDT"",
                            },
                        ],
                        x_prop: {},
                        iana_prop: {},
                    },
                    Daylight {
                        dtstart: DateTime(
                            Naive(
                                2007-03-11T02:00:00,
                            ),
                        ),
                        tzoffsetto: -04:00,
                        tzoffsetfrom: -05:00,
                        rrule: Some(
                            Recur {
                                freq: Yearly,
                                until: None,
                                count: None,
                                interval: 1,
                                by_second: [],
                                by_minute: [],
                                by_hour: [],
                                by_day: [
                                    WeekdayNum {
                                        weekday: Sunday,
                                        ord: Some(
                                            2,
                                        ),
                                    },
                                ],
                                by_monthday: [],
                                by_yearday: [],
                                by_weekno: [],
                                by_month: [
                                    3,
                                ],
                                by_setpos: [],
                                wkst: None,
                            },
                        ),
                        comment: [],
                        rdate: [],
                        tzname: [
                            Text {
                                params: {},
                                text: ""EDT"",
                            },
                        ],
                        x_prop: {},
                        iana_prop: {},
                    },
                ],
                x_prop: {},
                iana_prop: {},
            },
        ],
        x_prop: {},
        iana_prop: {},
    },
)
") = true.
Proof. vm_compute. reflexivity. Qed.
(** tests/calendars/big_bad_calendar.ics *)
Example file08 : is_err (vcalendar_of_str (crlf (lit "BEGIN:VCALENDAR
BEGIN:VEVENT
END:VEVENT
BEGIN:VEVENT
END:VEVENT
BEGIN:VEVENT
END:VEVENT
BEGIN:VEVENT
END:VEVENT
BEGIN:VEVENT
END:VEVENT
BEGIN:VEVENT
END:VEVENT
BEGIN:VEVENT
END:VEVENT
BEGIN:VEVENT
END:VEVENT
BEGIN:VEVENT
END:VEVENT
BEGIN:VEVENT
END:VEVENT
BEGIN:VEVENT
END:VEVENT
BEGIN:VEVENT
END:VEVENT
BEGIN:VEVENT
END:VEVENT
BEGIN:VEVENT
END:VEVENT
BEGIN:VEVENT
END:VEVENT
BEGIN:VEVENT
END:VEVENT
BEGIN:VEVENT
END:VEVENT
BEGIN:VEVENT
END:VEVENT
BEGIN:VEVENT
END:VEVENT
BEGIN:VEVENT
END:VEVENT
"))) = true.
Proof. vm_compute. reflexivity. Qed.
(** tests/calendars/broken_ical.ics *)
Example file09 : is_err (vcalendar_of_str (lit "BEGIN:VCALENDAR
BEGIN:VEVENT
SUMMARY:An Event with too many semicolons
DTSTART;;VALUE=DATE-TIME:20140409T093000
UID:abc
END:VEVENT
END:VCALENDAR")) = true.
Proof. vm_compute. reflexivity. Qed.
(** tests/calendars/calendar_with_unicode.ics *)
Example file10 : shows (debug_result (g_vcalendar f32d) (vcalendar_of_str (crlf (lit "BEGIN:VCALENDAR
PRODID:-//Pl" ++ [246] ++ lit "n" ++ [235] ++ lit ".org//NONSGML plone.app.event//EN
VERSION:2.0
X-WR-CALNAME:" ++ [228] ++ [246] ++ [252] ++ lit " " ++ [196] ++ [214] ++ [220] ++ lit " " ++ [8364] ++ lit "
X-WR-CALDESC:test non ascii: " ++ [228] ++ [246] ++ [252] ++ lit " " ++ [196] ++ [214] ++ [220] ++ lit " " ++ [8364] ++ lit "
X-WR-RELCALID:12345
END:VCALENDAR
")))) (lit "Ok(
    VCalendar {
        prodid: Text {
            params: {},
            text: ""-//Pl" ++ [246] ++ lit "n" ++ [235] ++ lit ".org//NONSGML plone.app.event//EN"",
        },
        version: Text {
            params: {},
            text: ""2.0"",
        },
        calscale: None,
        method: None,
        alarms: [],
        events: [],
        freebusy: [],
        journals: [],
        todo: [],
        timezones: [],
        x_prop: {
            ""X-WR-CALDESC"": ContentLine {
                params: {},
                value: ""test non ascii: " ++ [228] ++ [246] ++ [252] ++ lit " " ++ [196] ++ [214] ++ [220] ++ lit " " ++ [8364] ++ lit """,
            },
            ""X-WR-CALNAME"": ContentLine {
                params: {},
                value: """ ++ [228] ++ [246] ++ [252] ++ lit " " ++ [196] ++ [214] ++ [220] ++ lit " " ++ [8364] ++ lit """,
            },
            ""X-WR-RELCALID"": ContentLine {
                params: {},
                value: ""12345"",
            },
        },
        iana_prop: {},
    },
)
") = true.
Proof. vm_compute. reflexivity. Qed.
(** tests/calendars/created_calendar_with_unicode_fields.ics *)
Example file11 : shows (debug_result (g_vcalendar f32d) (vcalendar_of_str (crlf (lit "BEGIN:VCALENDAR
VERSION:2.0
PRODID:-//Pl" ++ [246] ++ lit "n" ++ [235] ++ lit ".org//NONSGML plone.app.event//EN
X-WR-CALDESC:test non ascii: " ++ [228] ++ [246] ++ [252] ++ lit " " ++ [196] ++ [214] ++ [220] ++ lit " " ++ [8364] ++ lit "
X-WR-CALNAME:" ++ [228] ++ [246] ++ [252] ++ lit " " ++ [196] ++ [214] ++ [220] ++ lit " " ++ [8364] ++ lit "
X-WR-RELCALID:12345
BEGIN:VEVENT
SUMMARY:Non-ASCII Test: " ++ [196] ++ [214] ++ [220] ++ lit " " ++ [228] ++ [246] ++ [252] ++ lit " " ++ [8364] ++ lit "
DTSTAMP:20101010T100000Z
DTSTART:20101010T100000Z
DTEND:20101010T120000Z
UID:123456
CREATED:20101010T000000Z
DESCRIPTION:icalendar should be able to de/serialize non-ascii.
LOCATION:Tribstr" ++ [252] ++ lit "l
END:VEVENT
BEGIN:VEVENT
SUMMARY:" ++ [229] ++ [228] ++ [246] ++ lit "
DTSTAMP:20101010T100000Z
UID:123456
DTSTART:20101010T000000Z
END:VEVENT
BEGIN:VEVENT
DTSTAMP:20101010T100000Z
UID:123456
DTSTART:20101010T000000Z
DESCRIPTION:" ++ [228] ++ [246] ++ [252] ++ [223] ++ [196] ++ [214] ++ [220] ++ lit "
END:VEVENT
END:VCALENDAR
")))) (lit "Ok(
    VCalendar {
        prodid: Text {
            params: {},
            text: ""-//Pl" ++ [246] ++ lit "n" ++ [235] ++ lit ".org//NONSGML plone.app.event//EN"",
        },
        version: Text {
            params: {},
            text: ""2.0"",
        },
        calscale: None,
        method: None,
        alarms: [],
        events: [
            VEvent {
                dtstamp: Local(
                    2010-10-10T12:00:00+02:00,
                ),
                uid: Text {
                    params: {},
                    text: ""123456"",
                },
                dtstart: DateTime(
                    Local(
                        2010-10-10T12:00:00+02:00,
                    ),
                ),
                class: None,
                created: Some(
                    Local(
                        2010-10-10T02:00:00+02:00,
                    ),
                ),
                description: Some(
                    Text {
                        params: {},
                        text: ""icalendar should be able to de/serialize non-ascii."",
                    },
                ),
                geo: None,
                last_modified: None,
                location: Some(
                    Text {
                        params: {},
                        text: ""Tribstr" ++ [252] ++ lit "l"",
                    },
                ),
                organizer: None,
                priority: None,
                sequence: None,
                status: None,
                summary: Some(
                    Text {
                        params: {},
                        text: ""Non-ASCII Test: " ++ [196] ++ [214] ++ [220] ++ lit " " ++ [228] ++ [246] ++ [252] ++ lit " " ++ [8364] ++ lit """,
                    },
                ),
                transp: None,
                url: None,
                recurid: None,
                rrule: None,
                dtend: Some(
                    DateTime(
                        Local(
                            2010-10-10T14:00:00+02:00,
                        ),
                    ),
                ),
                duration: None,
                attach: [],
                attendee: [],
                categories: [],
                comment: [],
                contact: [],
                exdate: [],
                rstatus: [],
                related_to: [],
                resources: [],
                rdate: [],
                alarms: [],
                x_prop: {},
                iana_prop: {},
            },
            VEvent {
                dtstamp: Local(
                    2010-10-10T12:00:00+02:00,
                ),
                uid: Text {
                    params: {},
                    text: ""123456"",
                },
                dtstart: DateTime(
                    Local(
                        2010-10-10T02:00:00+02:00,
                    ),
                ),
                class: None,
                created: None,
                description: None,
                geo: None,
                last_modified: None,
                location: None,
                organizer: None,
                priority: None,
                sequence: None,
                status: None,
                summary: Some(
                    Text {
                        params: {},
                        text: """ ++ [229] ++ [228] ++ [246] ++ lit """,
                    },
                ),
                transp: None,
                url: None,
                recurid: None,
                rrule: None,
                dtend: None,
                duration: None,
                attach: [],
                attendee: [],
                categories: [],
                comment: [],
                contact: [],
                exdate: [],
                rstatus: [],
                related_to: [],
                resources: [],
                rdate: [],
                alarms: [],
                x_prop: {},
                iana_prop: {},
            },
            VEvent {
                dtstamp: Local(
                    2010-10-10T12:00:00+02:00,
                ),
                uid: Text {
                    params: {},
                    text: ""123456"",
                },
                dtstart: DateTime(
                    Local(
                        2010-10-10T02:00:00+02:00,
                    ),
                ),
                class: None,
                created: None,
                description: Some(
                    Text {
                        params: {},
                        text: """ ++ [228] ++ [246] ++ [252] ++ [223] ++ [196] ++ [214] ++ [220] ++ lit """,
                    },
                ),
                geo: None,
                last_modified: None,
                location: None,
                organizer: None,
                priority: None,
                sequence: None,
                status: None,
                summary: None,
                transp: None,
                url: None,
                recurid: None,
                rrule: None,
                dtend: None,
                duration: None,
                attach: [],
                attendee: [],
                categories: [],
                comment: [],
                contact: [],
                exdate: [],
                rstatus: [],
                related_to: [],
                resources: [],
                rdate: [],
                alarms: [],
                x_prop: {},
                iana_prop: {},
            },
        ],
        freebusy: [],
        journals: [],
        todo: [],
        timezones: [],
        x_prop: {
            ""X-WR-CALDESC"": ContentLine {
                params: {},
                value: ""test non ascii: " ++ [228] ++ [246] ++ [252] ++ lit " " ++ [196] ++ [214] ++ [220] ++ lit " " ++ [8364] ++ lit """,
            },
            ""X-WR-CALNAME"": ContentLine {
                params: {},
                value: """ ++ [228] ++ [246] ++ [252] ++ lit " " ++ [196] ++ [214] ++ [220] ++ lit " " ++ [8364] ++ lit """,
            },
            ""X-WR-RELCALID"": ContentLine {
                params: {},
                value: ""12345"",
            },
        },
        iana_prop: {},
    },
)
") = true.
Proof. vm_compute. reflexivity. Qed.
(** tests/calendars/example.ics *)
Example file12 : shows (debug_result (g_vcalendar f32d) (vcalendar_of_str (crlf (lit "BEGIN:VCALENDAR
VERSION:2.0
PRODID:collective/icalendar
CALSCALE:GREGORIAN
METHOD:PUBLISH
X-WR-CALNAME:Holidays
X-WR-TIMEZONE:Etc/GMT
BEGIN:VEVENT
SUMMARY:New Year's Day
DTSTART:20220101
DTEND:20220101
DESCRIPTION:Happy New Year!
UID:636a0cc1dbd5a1667894465@icalendar
DTSTAMP:20221108T080105Z
STATUS:CONFIRMED
TRANSP:TRANSPARENT
SEQUENCE:0
END:VEVENT
BEGIN:VEVENT
SUMMARY:Orthodox Christmas
DTSTART:20220107
DTEND:20220107
LOCATION:Russia
DESCRIPTION:It is Christmas again!
UID:636a0cc1dbfd91667894465@icalendar
DTSTAMP:20221108T080105Z
STATUS:CONFIRMED
TRANSP:TRANSPARENT
SEQUENCE:0
END:VEVENT
BEGIN:VEVENT
SUMMARY:International Women's Day
DTSTART:20220308
DTEND:20220308
DESCRIPTION:May the feminine be honoured!
UID:636a0cc1dc0f11667894465@icalendar
DTSTAMP:20221108T080105Z
STATUS:CONFIRMED
TRANSP:TRANSPARENT
SEQUENCE:0
END:VEVENT
END:VCALENDAR
")))) (lit "Ok(
    VCalendar {
        prodid: Text {
            params: {},
            text: ""collective/icalendar"",
        },
        version: Text {
            params: {},
            text: ""2.0"",
        },
        calscale: Some(
            Text {
                params: {},
                text: ""GREGORIAN"",
            },
        ),
        method: Some(
            Text {
                params: {},
                text: ""PUBLISH"",
            },
        ),
        alarms: [],
        events: [
            VEvent {
                dtstamp: Local(
                    2022-11-08T09:01:05+01:00,
                ),
                uid: Text {
                    params: {},
                    text: ""636a0cc1dbd5a1667894465@icalendar"",
                },
                dtstart: Date(
                    2022-01-01,
                ),
                class: None,
                created: None,
                description: Some(
                    Text {
                        params: {},
                        text: ""Happy New Year!"",
                    },
                ),
                geo: None,
                last_modified: None,
                location: None,
                organizer: None,
                priority: None,
                sequence: Some(
                    0,
                ),
                status: Some(
                    Confirmed,
                ),
                summary: Some(
                    Text {
                        params: {},
                        text: ""New Year's Day"",
                    },
                ),
                transp: Some(
                    Transparent,
                ),
                url: None,
                recurid: None,
                rrule: None,
                dtend: Some(
                    Date(
                        2022-01-01,
                    ),
                ),
                duration: None,
                attach: [],
                attendee: [],
                categories: [],
                comment: [],
                contact: [],
                exdate: [],
                rstatus: [],
                related_to: [],
                resources: [],
                rdate: [],
                alarms: [],
                x_prop: {},
                iana_prop: {},
            },
            VEvent {
                dtstamp: Local(
                    2022-11-08T09:01:05+01:00,
                ),
                uid: Text {
                    params: {},
                    text: ""636a0cc1dbfd91667894465@icalendar"",
                },
                dtstart: Date(
                    2022-01-07,
                ),
                class: None,
                created: None,
                description: Some(
                    Text {
                        params: {},
                        text: ""It is Christmas again!"",
                    },
                ),
                geo: None,
                last_modified: None,
                location: Some(
                    Text {
                        params: {},
                        text: ""Russia"",
                    },
                ),
                organizer: None,
                priority: None,
                sequence: Some(
                    0,
                ),
                status: Some(
                    Confirmed,
                ),
                summary: Some(
                    Text {
                        params: {},
                        text: ""Orthodox Christmas"",
                    },
                ),
                transp: Some(
                    Transparent,
                ),
                url: None,
                recurid: None,
                rrule: None,
                dtend: Some(
                    Date(
                        2022-01-07,
                    ),
                ),
                duration: None,
                attach: [],
                attendee: [],
                categories: [],
                comment: [],
                contact: [],
                exdate: [],
                rstatus: [],
                related_to: [],
                resources: [],
                rdate: [],
                alarms: [],
                x_prop: {},
                iana_prop: {},
            },
            VEvent {
                dtstamp: Local(
                    2022-11-08T09:01:05+01:00,
                ),
                uid: Text {
                    params: {},
                    text: ""636a0cc1dc0f11667894465@icalendar"",
                },
                dtstart: Date(
                    2022-03-08,
                ),
                class: None,
                created: None,
                description: Some(
                    Text {
                        params: {},
                        text: ""May the feminine be honoured!"",
                    },
                ),
                geo: None,
                last_modified: None,
                location: None,
                organizer: None,
                priority: None,
                sequence: Some(
                    0,
                ),
                status: Some(
                    Confirmed,
                ),
                summary: Some(
                    Text {
                        params: {},
                        text: ""International Women's Day"",
                    },
                ),
                transp: Some(
                    Transparent,
                ),
                url: None,
                recurid: None,
                rrule: None,
                dtend: Some(
                    Date(
                        2022-03-08,
                    ),
                ),
                duration: None,
                attach: [],
                attendee: [],
                categories: [],
                comment: [],
                contact: [],
                exdate: [],
                rstatus: [],
                related_to: [],
                resources: [],
                rdate: [],
                alarms: [],
                x_prop: {},
                iana_prop: {},
            },
        ],
        freebusy: [],
        journals: [],
        todo: [],
        timezones: [],
        x_prop: {
            ""X-WR-CALNAME"": ContentLine {
                params: {},
                value: ""Holidays"",
            },
            ""X-WR-TIMEZONE"": ContentLine {
                params: {},
                value: ""Etc/GMT"",
            },
        },
        iana_prop: {},
    },
)
") = true.
Proof. vm_compute. reflexivity. Qed.
(** tests/calendars/issue_104_broken_calendar.ics *)
Example file13 : is_err (vcalendar_of_str (crlf (lit "BEGIN:VCALENDAR
VERSION:2.0
METHOD:PUBLISH
BEGIN:VEVENT
DTSTART:20140401T000000Z
DTEND:20140401T010000Z
DTSTAMP:20140401T000000Z
SUMMARY:Broken Eevnt
CLASS:PUBLIC
STATUS:CONFIRMED
TRANSP:OPAQUE
END:VEVENT
X
END:VCALENDAR
"))) = true.
Proof. vm_compute. reflexivity. Qed.
(** tests/calendars/issue_156_RDATE_with_PERIOD_TZID_khal.ics *)
Example file14 : shows (debug_result (g_vcalendar f32d) (vcalendar_of_str (crlf (lit "BEGIN:VCALENDAR
X-SOURCE-URL:https://github.com/pimutils/khal/issues/152#issuecomment-387410353
VERSION:2.0
PRODID:-//PIMUTILS.ORG//NONSGML khal / icalendar //EN
BEGIN:VEVENT
SUMMARY:Event
UID:BF5109494E67AAE20025875100566D31-Lotus_Notes_Generated
DTSTART;TZID=America/Chicago;VALUE=DATE-TIME:20180327T080000
DTEND;TZID=America/Chicago;VALUE=DATE-TIME:20180327T090000
DTSTAMP:20180323T200333Z
RECURRENCE-ID;RANGE=THISANDFUTURE:20180327T130000Z
SEQUENCE:10
RDATE;TZID=""Central Standard Time"";VALUE=PERIOD:20180327T080000/20180327T0
 90000,20180403T080000/20180403T090000,20180410T080000/20180410T090000,2018
 0417T080000/20180417T090000,20180424T080000/20180424T090000,20180501T08000
 0/20180501T090000,20180508T080000/20180508T090000,20180515T080000/20180515
 T090000,20180522T080000/20180522T090000,20180529T080000/20180529T090000,20
 180605T080000/20180605T090000,20180612T080000/20180612T090000,20180619T080
 000/20180619T090000,20180626T080000/20180626T090000,20180703T080000/201807
 03T090000,20180710T080000/20180710T090000,20180717T080000/20180717T090000,
 20180724T080000/20180724T090000,20180731T080000/20180731T090000
ATTENDEE;CN=""XYZ"";PARTSTAT=ACCEPTED;ROLE=CHAIR;RSVP=
 FALSE:mailto:xyz@xyz.com
CLASS:PUBLIC
END:VEVENT
END:VCALENDAR
")))) (lit "Ok(
    VCalendar {
        prodid: Text {
            params: {},
            text: ""-//PIMUTILS.ORG//NONSGML khal / icalendar //EN"",
        },
        version: Text {
            params: {},
            text: ""2.0"",
        },
        calscale: None,
        method: None,
        alarms: [],
        events: [
            VEvent {
                dtstamp: Local(
                    2018-03-23T21:03:33+01:00,
                ),
                uid: Text {
                    params: {},
                    text: ""BF5109494E67AAE20025875100566D31-Lotus_Notes_Generated"",
                },
                dtstart: DateTime(
                    Naive(
                        2018-03-27T08:00:00,
                    ),
                ),
                class: Some(
                    Public,
                ),
                created: None,
                description: None,
                geo: None,
                last_modified: None,
                location: None,
                organizer: None,
                priority: None,
                sequence: Some(
                    10,
                ),
                status: None,
                summary: Some(
                    Text {
                        params: {},
                        text: ""Event"",
                    },
                ),
                transp: None,
                url: None,
                recurid: None,
                rrule: None,
                dtend: Some(
                    DateTime(
                        Naive(
                            2018-03-27T09:00:00,
                        ),
                    ),
                ),
                duration: None,
                attach: [],
                attendee: [
                    Uri {
                        params: {
                            ""CN"": ""XYZ"",
                            ""PARTSTAT"": ""ACCEPTED"",
                            ""ROLE"": ""CHAIR"",
                            ""RSVP"": ""FALSE"",
                        },
                        uri: ""mailto:xyz@xyz.com"",
                    },
                ],
                categories: [],
                comment: [],
                contact: [],
                exdate: [],
                rstatus: [],
                related_to: [],
                resources: [],
                rdate: [
                    Period(
                        [
                            StartEnd(
                                StartEnd {
                                    start: Naive(
                                        2018-03-27T08:00:00,
                                    ),
                                    end: Naive(
                                        2018-03-27T09:00:00,
                                    ),
                                },
                            ),
                            StartEnd(
                                StartEnd {
                                    start: Naive(
                                        2018-04-03T08:00:00,
                                    ),
                                    end: Naive(
                                        2018-04-03T09:00:00,
                                    ),
                                },
                            ),
                            StartEnd(
                                StartEnd {
                                    start: Naive(
                                        2018-04-10T08:00:00,
                                    ),
                                    end: Naive(
                                        2018-04-10T09:00:00,
                                    ),
                                },
                            ),
                            StartEnd(
                                StartEnd {
                                    start: Naive(
                                        2018-04-17T08:00:00,
                                    ),
                                    end: Naive(
                                        2018-04-17T09:00:00,
                                    ),
                                },
                            ),
                            StartEnd(
                                StartEnd {
                                    start: Naive(
                                        2018-04-24T08:00:00,
                                    ),
                                    end: Naive(
                                        2018-04-24T09:00:00,
                                    ),
                                },
                            ),
                            StartEnd(
                                StartEnd {
                                    start: Naive(
                                        2018-05-01T08:00:00,
                                    ),
                                    end: Naive(
                                        2018-05-01T09:00:00,
                                    ),
                                },
                            ),
                            StartEnd(
                                StartEnd {
                                    start: Naive(
                                        2018-05-08T08:00:00,
                                    ),
                                    end: Naive(
                                        2018-05-08T09:00:00,
                                    ),
                                },
                            ),
                            StartEnd(
                                StartEnd {
                                    start: Naive(
                                        2018-05-15T08:00:00,
                                    ),
                                    end: Naive(
                                        2018-05-15T09:00:00,
                                    ),
                                },
                            ),
                            StartEnd(
                                StartEnd {
                                    start: Naive(
                                        2018-05-22T08:00:00,
                                    ),
                                    end: Naive(
                                        2018-05-22T09:00:00,
                                    ),
                                },
                            ),
                            StartEnd(
                                StartEnd {
                                    start: Naive(
                                        2018-05-29T08:00:00,
                                    ),
                                    end: Naive(
                                        2018-05-29T09:00:00,
                                    ),
                                },
                            ),
                            StartEnd(
                                StartEnd {
                                    start: Naive(
                                        2018-06-05T08:00:00,
                                    ),
                                    end: Naive(
                                        2018-06-05T09:00:00,
                                    ),
                                },
                            ),
                            StartEnd(
                                StartEnd {
                                    start: Naive(
                                        2018-06-12T08:00:00,
                                    ),
                                    end: Naive(
                                        2018-06-12T09:00:00,
                                    ),
                                },
                            ),
                            StartEnd(
                                StartEnd {
                                    start: Naive(
                                        2018-06-19T08:00:00,
                                    ),
                                    end: Naive(
                                        2018-06-19T09:00:00,
                                    ),
                                },
                            ),
                            StartEnd(
                                StartEnd {
                                    start: Naive(
                                        2018-06-26T08:00:00,
                                    ),
                                    end: Naive(
                                        2018-06-26T09:00:00,
                                    ),
                                },
                            ),
                            StartEnd(
                                StartEnd {
                                    start: Naive(
                                        2018-07-03T08:00:00,
                                    ),
                                    end: Naive(
                                        2018-07-03T09:00:00,
                                    ),
                                },
                            ),
                            StartEnd(
                                StartEnd {
                                    start: Naive(
                                        2018-07-10T08:00:00,
                                    ),
                                    end: Naive(
                                        2018-07-10T09:00:00,
                                    ),
                                },
                            ),
                            StartEnd(
                                StartEnd {
                                    start: Naive(
                                        2018-07-17T08:00:00,
                                    ),
                                    end: Naive(
                                        2018-07-17T09:00:00,
                                    ),
                                },
                            ),
                            StartEnd(
                                StartEnd {
                                    start: Naive(
                                        2018-07-24T08:00:00,
                                    ),
                                    end: Naive(
                                        2018-07-24T09:00:00,
                                    ),
                                },
                            ),
                            StartEnd(
                                StartEnd {
                                    start: Naive(
                                        2018-07-31T08:00:00,
                                    ),
                                    end: Naive(
                                        2018-07-31T09:00:00,
                                    ),
                                },
                            ),
                        ],
                    ),
                ],
                alarms: [],
                x_prop: {},
                iana_prop: {
                    ""RECURRENCE-ID"": ContentLine {
                        params: {
                            ""RANGE"": ""THISANDFUTURE"",
                        },
                        value: ""20180327T130000Z"",
                    },
                },
            },
        ],
        freebusy: [],
        journals: [],
        todo: [],
        timezones: [],
        x_prop: {
            ""X-SOURCE-URL"": ContentLine {
                params: {},
                value: ""https://github.com/pimutils/khal/issues/152#issuecomment-387410353"",
            },
        },
        iana_prop: {},
    },
)
") = true.
Proof. vm_compute. reflexivity. Qed.
(** tests/calendars/issue_156_RDATE_with_PERIOD_TZID_khal_2.ics *)
Example file15 : shows (debug_result (g_vcalendar f32d) (vcalendar_of_str (crlf (lit "BEGIN:VCALENDAR
X-SOURCE-URL:https://github.com/pimutils/khal/issues/152#issuecomment-933635248
VERSION:2.0
PRODID:-//PIMUTILS.ORG//NONSGML khal / icalendar //EN
BEGIN:VTIMEZONE
TZID:Western/Central Europe
BEGIN:STANDARD
DTSTART:19501029T020000
RRULE:FREQ=YEARLY;BYMINUTE=0;BYHOUR=2;BYDAY=-1SU;BYMONTH=10
TZOFFSETFROM:+0200
TZOFFSETTO:+0100
END:STANDARD
BEGIN:DAYLIGHT
DTSTART:19500326T020000
RRULE:FREQ=YEARLY;BYMINUTE=0;BYHOUR=2;BYDAY=-1SU;BYMONTH=3
TZOFFSETFROM:+0100
TZOFFSETTO:+0200
END:DAYLIGHT
END:VTIMEZONE
BEGIN:VEVENT
SUMMARY:(omitted)
DTSTART;TZID=""Western/Central Europe"";VALUE=DATE-TIME:20211101T160000
DTEND;TZID=""Western/Central Europe"";VALUE=DATE-TIME:20211101T163000
DTSTAMP:20211004T150245Z
UID:BF5109494E67AAE20025875100566D31-Lotus_Notes_Generated
RECURRENCE-ID;RANGE=THISANDFUTURE:20211101T150000Z
SEQUENCE:0
RDATE;TZID=""Western/Central Europe"";VALUE=PERIOD:20211101T160000/20211101T
 163000,20211206T160000/20211206T163000,20220103T160000/20220103T163000,202
 20207T160000/20220207T163000
ATTENDEE;CN=""(omitted)"";PARTSTAT=ACCEPTED;ROLE=CHAIR;RSVP=FAL
 SE:mailto:omitted@example.com
CLASS:PUBLIC
TRANSP:OPAQUE
X-LOTUS-APPTTYPE:3
X-LOTUS-AUDIOVIDEOFLAGS:0
X-LOTUS-BROADCAST:FALSE
X-LOTUS-CHANGE-INST-DATES:20211101T150000Z\,20211206T150000Z\,20220103T150
 000Z\,20220207T150000Z
X-LOTUS-CHILD-UID:567EFBAF6CBD07FC0025875100566D3B
X-LOTUS-INITIAL-RDATES:20211101T150000Z\,20211206T150000Z\,20220103T150000
 Z\,20220207T150000Z
X-LOTUS-LASTALL-RDATES;TZID=""Western/Central Europe"":20211101T160000\,2021
 1206T160000\,20220103T160000\,20220207T160000
X-LOTUS-NOTESVERSION:2
X-LOTUS-NOTICETYPE:I
X-LOTUS-RECURID;RANGE=THISANDFUTURE:20211101T150000Z
X-LOTUS-UPDATE-SEQ:2
X-LOTUS-UPDATE-WISL:$W:1\;$O:1\;$M:1\;RequiredAttendees:1\;INetRequiredNam
 es:1\;AltRequiredNames:1\;StorageRequiredNames:1\;OptionalAttendees:1\;INe
 tOptionalNames:1\;AltOptionalNames:1\;StorageOptionalNames:1\;ApptUNIDURL:
 1\;STUnyteConferenceURL:1\;STUnyteConferenceID:1\;SametimeType:1\;WhiteBoa
 rdContent:1\;STRoomName:1\;$S:2\;$B:2\;$L:2\;$E:2\;$R:2
END:VEVENT
END:VCALENDAR
")))) (lit "Ok(
    VCalendar {
        prodid: Text {
            params: {},
            text: ""-//PIMUTILS.ORG//NONSGML khal / icalendar //EN"",
        },
        version: Text {
            params: {},
            text: ""2.0"",
        },
        calscale: None,
        method: None,
        alarms: [],
        events: [
            VEvent {
                dtstamp: Local(
                    2021-10-04T17:02:45+02:00,
                ),
                uid: Text {
                    params: {},
                    text: ""BF5109494E67AAE20025875100566D31-Lotus_Notes_Generated"",
                },
                dtstart: DateTime(
                    Naive(
                        2021-11-01T16:00:00,
                    ),
                ),
                class: Some(
                    Public,
                ),
                created: None,
                description: None,
                geo: None,
                last_modified: None,
                location: None,
                organizer: None,
                priority: None,
                sequence: Some(
                    0,
                ),
                status: None,
                summary: Some(
                    Text {
                        params: {},
                        text: ""(omitted)"",
                    },
                ),
                transp: Some(
                    Opaque,
                ),
                url: None,
                recurid: None,
                rrule: None,
                dtend: Some(
                    DateTime(
                        Naive(
                            2021-11-01T16:30:00,
                        ),
                    ),
                ),
                duration: None,
                attach: [],
                attendee: [
                    Uri {
                        params: {
                            ""CN"": ""(omitted)"",
                            ""PARTSTAT"": ""ACCEPTED"",
                            ""ROLE"": ""CHAIR"",
                            ""RSVP"": ""FALSE"",
                        },
                        uri: ""mailto:omitted@example.com"",
                    },
                ],
                categories: [],
                comment: [],
                contact: [],
                exdate: [],
                rstatus: [],
                related_to: [],
                resources: [],
                rdate: [
                    Period(
                        [
                            StartEnd(
                                StartEnd {
                                    start: Naive(
                                        2021-11-01T16:00:00,
                                    ),
                                    end: Naive(
                                        2021-11-01T16:30:00,
                                    ),
                                },
                            ),
                            StartEnd(
                                StartEnd {
                                    start: Naive(
                                        2021-12-06T16:00:00,
                                    ),
                                    end: Naive(
                                        2021-12-06T16:30:00,
                                    ),
                                },
                            ),
                            StartEnd(
                                StartEnd {
                                    start: Naive(
                                        2022-01-03T16:00:00,
                                    ),
                                    end: Naive(
                                        2022-01-03T16:30:00,
                                    ),
                                },
                            ),
                            StartEnd(
                                StartEnd {
                                    start: Naive(
                                        2022-02-07T16:00:00,
                                    ),
                                    end: Naive(
                                        2022-02-07T16:30:00,
                                    ),
                                },
                            ),
                        ],
                    ),
                ],
                alarms: [],
                x_prop: {
                    ""X-LOTUS-APPTTYPE"": ContentLine {
                        params: {},
                        value: ""3"",
                    },
                    ""X-LOTUS-AUDIOVIDEOFLAGS"": ContentLine {
                        params: {},
                        value: ""0"",
                    },
                    ""X-LOTUS-BROADCAST"": ContentLine {
                        params: {},
                        value: ""FALSE"",
                    },
                    ""X-LOTUS-CHANGE-INST-DATES"": ContentLine {
                        params: {},
                        value: ""20211101T150000Z\\,20211206T150000Z\\,20220103T150000Z\\,20220207T150000Z"",
                    },
                    ""X-LOTUS-CHILD-UID"": ContentLine {
                        params: {},
                        value: ""567EFBAF6CBD07FC0025875100566D3B"",
                    },
                    ""X-LOTUS-INITIAL-RDATES"": ContentLine {
                        params: {},
                        value: ""20211101T150000Z\\,20211206T150000Z\\,20220103T150000Z\\,20220207T150000Z"",
                    },
                    ""X-LOTUS-LASTALL-RDATES"": ContentLine {
                        params: {
                            ""TZID"": ""Western/Central Europe"",
                        },
                        value: ""20211101T160000\\,20211206T160000\\,20220103T160000\\,20220207T160000"",
                    },
                    ""X-LOTUS-NOTESVERSION"": ContentLine {
                        params: {},
                        value: ""2"",
                    },
                    ""X-LOTUS-NOTICETYPE"": ContentLine {
                        params: {},
                        value: ""I"",
                    },
                    ""X-LOTUS-RECURID"": ContentLine {
                        params: {
                            ""RANGE"": ""THISANDFUTURE"",
                        },
                        value: ""20211101T150000Z"",
                    },
                    ""X-LOTUS-UPDATE-SEQ"": ContentLine {
                        params: {},
                        value: ""2"",
                    },
                    ""X-LOTUS-UPDATE-WISL"": ContentLine {
                        params: {},
                        value: ""$W:1\\;$O:1\\;$M:1\\;RequiredAttendees:1\\;INetRequiredNames:1\\;AltRequiredNames:1\\;StorageRequiredNames:1\\;OptionalAttendees:1\\;INetOptionalNames:1\\;AltOptionalNames:1\\;StorageOptionalNames:1\\;ApptUNIDURL:1\\;STUnyteConferenceURL:1\\;STUnyteConferenceID:1\\;SametimeType:1\\;WhiteBoardContent:1\\;STRoomName:1\\;$S:2\\;$B:2\\;$L:2\\;$E:2\\;$R:2"",
                    },
                },
                iana_prop: {
                    ""RECURRENCE-ID"": ContentLine {
                        params: {
                            ""RANGE"": ""THISANDFUTURE"",
                        },
                        value: ""20211101T150000Z"",
                    },
                },
            },
        ],
        freebusy: [],
        journals: [],
        todo: [],
        timezones: [
            VTimezone {
                tzid: Text {
                    params: {},
                    text: ""Western/Central Europe"",
                },
                last_modified: None,
                tzurl: None,
                standard: [
                    Standard {
                        dtstart: DateTime(
                            Naive(
                                1950-10-29T02:00:00,
                            ),
                        ),
                        tzoffsetto: +01:00,
                        tzoffsetfrom: +02:00,
                        rrule: Some(
                            Recur {
                                freq: Yearly,
                                until: None,
                                count: None,
                                interval: 1,
                                by_second: [],
                                by_minute: [
                                    0,
                                ],
                                by_hour: [
                                    2,
                                ],
                                by_day: [
                                    WeekdayNum {
                                        weekday: Sunday,
                                        ord: Some(
                                            -1,
                                        ),
                                    },
                                ],
                                by_monthday: [],
                                by_yearday: [],
                                by_weekno: [],
                                by_month: [
                                    10,
                                ],
                                by_setpos: [],
                                wkst: None,
                            },
                        ),
                        comment: [],
                        rdate: [],
                        tzname: [],
                        x_prop: {},
                        iana_prop: {},
                    },
                ],
                daylight: [
                    Daylight {
                        dtstart: DateTime(
                            Naive(
                                1950-03-26T02:00:00,
                            ),
                        ),
                        tzoffsetto: +02:00,
                        tzoffsetfrom: +01:00,
                        rrule: Some(
                            Recur {
                                freq: Yearly,
                                until: None,
                                count: None,
                                interval: 1,
                                by_second: [],
                                by_minute: [
                                    0,
                                ],
                                by_hour: [
                                    2,
                                ],
                                by_day: [
                                    WeekdayNum {
                                        weekday: Sunday,
                                        ord: Some(
                                            -1,
                                        ),
                                    },
                                ],
                                by_monthday: [],
                                by_yearday: [],
                                by_weekno: [],
                                by_month: [
                                    3,
                                ],
                                by_setpos: [],
                                wkst: None,
                            },
                        ),
                        comment: [],
                        rdate: [],
                        tzname: [],
                        x_prop: {},
                        iana_prop: {},
                    },
                ],
                x_prop: {},
                iana_prop: {},
            },
        ],
        x_prop: {
            ""X-SOURCE-URL"": ContentLine {
                params: {},
                value: ""https://github.com/pimutils/khal/issues/152#issuecomment-933635248"",
            },
        },
        iana_prop: {},
    },
)
") = true.
Proof. vm_compute. reflexivity. Qed.
(** tests/calendars/issue_165_missing_event.ics *)
Example file16 : is_err (vcalendar_of_str (lit "BEGIN:VCALENDAR
METHOD:REQUEST
PRODID:Microsoft CDO for Microsoft Exchange
VERSION:2.0
BEGIN:VTIMEZONE
TZID:GMT +0100 (Standard) / GMT +0200 (Daylight)
BEGIN:STANDARD
DTSTART:16010101T030000
TZOFFSETFROM:+0200
TZOFFSETTO:+0100
RRULE:FREQ=YEARLY;WKST=MO;INTERVAL=1;BYMONTH=10;BYDAY=-1SU
END:STANDARD
BEGIN:DAYLIGHT
DTSTART:16010101T020000
TZOFFSETFROM:+0100
TZOFFSETTO:+0200
RRULE:FREQ=YEARLY;WKST=MO;INTERVAL=1;BYMONTH=3;BYDAY=-1SU
END:DAYLIGHT
END:VTIMEZONE
BEGIN:VEVENT
DTSTAMP:20150703T071009Z
DTSTART;TZID=""GMT +0100 (Standard) / GMT +0200 (Daylight)"":20150703T100000
SUMMARY:Sprint 25 Daily Standup
DTEND;TZID=""GMT +0100 (Standard) / GMT +0200 (Daylight)"":20150703T103000
RRULE:FREQ=DAILY;UNTIL=20150722T080000Z;INTERVAL=1;BYDAY=MO, TU, WE, TH, FR
 ;WKST=SU
END:VEVENT
END:VCALENDAR
")) = true.
Proof. vm_compute. reflexivity. Qed.
(** tests/calendars/issue_168_expected_output.ics *)
Example file17 : is_err (vcalendar_of_str (crlf (lit "BEGIN:VCALENDAR
BEGIN:VEVENT
DTSTART:20150905T090000Z
DTEND:20150905T100000Z
UID:123
END:VEVENT
END:VCALENDAR
"))) = true.
Proof. vm_compute. reflexivity. Qed.
(** tests/calendars/issue_168_input.ics *)
Example file18 : is_err (vcalendar_of_str (crlf (lit "BEGIN:VCALENDAR
BEGIN:VEVENT
DTSTART:20150905T090000Z
DTEND:20150905T100000Z
UID:123
X-APPLE-RADIUS=49.91307046514149
END:VEVENT
END:VCALENDAR
"))) = true.
Proof. vm_compute. reflexivity. Qed.
(** tests/calendars/issue_178_component_with_invalid_name_represented.ics *)
Example file19 : is_err (vcalendar_of_str (crlf (lit "BEGIN:MYCOMP
END:MYCOMP
"))) = true.
Proof. vm_compute. reflexivity. Qed.
(** tests/calendars/issue_178_custom_component_contains_other.ics *)
Example file20 : is_err (vcalendar_of_str (crlf (lit "BEGIN:MYCOMPTOO
DTSTAMP:20150121T080000
BEGIN:VEVENT
DTSTART:20150122
UID:12345
END:VEVENT
END:MYCOMPTOO
"))) = true.
Proof. vm_compute. reflexivity. Qed.
(** tests/calendars/issue_178_custom_component_inside_other.ics *)
Example file21 : is_err (vcalendar_of_str (crlf (lit "BEGIN:VCALENDAR
BEGIN:UNKNOWN
UID:1234
END:UNKNOWN
END:VCALENDAR
"))) = true.
Proof. vm_compute. reflexivity. Qed.
(** tests/calendars/issue_237_fail_to_parse_timezone_with_non_ascii_tzid.ics *)
Example file22 : shows (debug_result (g_vcalendar f32d) (vcalendar_of_str (crlf (lit "BEGIN:VCALENDAR
VERSION:2.0
PRODID:collective/icalendar
BEGIN:VTIMEZONE
TZID:(UTC-03:00) Bras" ++ [237] ++ lit "lia
BEGIN:STANDARD
TZNAME:Bras" ++ [237] ++ lit "lia standard
DTSTART:16010101T235959
TZOFFSETFROM:-0200
TZOFFSETTO:-0300
RRULE:FREQ=YEARLY;INTERVAL=1;BYDAY=3SA;BYMONTH=2
END:STANDARD
BEGIN:DAYLIGHT
TZNAME:Bras" ++ [237] ++ lit "lia daylight
DTSTART:16010101T235959
TZOFFSETFROM:-0300
TZOFFSETTO:-0200
RRULE:FREQ=YEARLY;INTERVAL=1;BYDAY=2SA;BYMONTH=10
END:DAYLIGHT
END:VTIMEZONE
BEGIN:VEVENT
DTSTART;TZID=""(UTC-03:00) Bras" ++ [237] ++ lit "lia"":20170511T133000
DTEND;TZID=""(UTC-03:00) Bras" ++ [237] ++ lit "lia"":20170511T140000
DTSTAMP:16010101T235959
UID:123456
END:VEVENT
END:VCALENDAR
")))) (lit "Ok(
    VCalendar {
        prodid: Text {
            params: {},
            text: ""collective/icalendar"",
        },
        version: Text {
            params: {},
            text: ""2.0"",
        },
        calscale: None,
        method: None,
        alarms: [],
        events: [
            VEvent {
                dtstamp: Naive(
                    1601-01-01T23:59:59,
                ),
                uid: Text {
                    params: {},
                    text: ""123456"",
                },
                dtstart: DateTime(
                    Naive(
                        2017-05-11T13:30:00,
                    ),
                ),
                class: None,
                created: None,
                description: None,
                geo: None,
                last_modified: None,
                location: None,
                organizer: None,
                priority: None,
                sequence: None,
                status: None,
                summary: None,
                transp: None,
                url: None,
                recurid: None,
                rrule: None,
                dtend: Some(
                    DateTime(
                        Naive(
                            2017-05-11T14:00:00,
                        ),
                    ),
                ),
                duration: None,
                attach: [],
                attendee: [],
                categories: [],
                comment: [],
                contact: [],
                exdate: [],
                rstatus: [],
                related_to: [],
                resources: [],
                rdate: [],
                alarms: [],
                x_prop: {},
                iana_prop: {},
            },
        ],
        freebusy: [],
        journals: [],
        todo: [],
        timezones: [
            VTimezone {
                tzid: Text {
                    params: {},
                    text: ""(UTC-03:00) Bras" ++ [237] ++ lit "lia"",
                },
                last_modified: None,
                tzurl: None,
                standard: [
                    Standard {
                        dtstart: DateTime(
                            Naive(
                                1601-01-01T23:59:59,
                            ),
                        ),
                        tzoffsetto: -03:00,
                        tzoffsetfrom: -02:00,
                        rrule: Some(
                            Recur {
                                freq: Yearly,
                                until: None,
                                count: None,
                                interval: 1,
                                by_second: [],
                                by_minute: [],
                                by_hour: [],
                                by_day: [
                                    WeekdayNum {
                                        weekday: Saturday,
                                        ord: Some(
                                            3,
                                        ),
                                    },
                                ],
                                by_monthday: [],
                                by_yearday: [],
                                by_weekno: [],
                                by_month: [
                                    2,
                                ],
                                by_setpos: [],
                                wkst: None,
                            },
                        ),
                        comment: [],
                        rdate: [],
                        tzname: [
                            Text {
                                params: {},
                                text: ""Bras" ++ [237] ++ lit "lia standard"",
                            },
                        ],
                        x_prop: {},
                        iana_prop: {},
                    },
                ],
                daylight: [
                    Daylight {
                        dtstart: DateTime(
                            Naive(
                                1601-01-01T23:59:59,
                            ),
                        ),
                        tzoffsetto: -02:00,
                        tzoffsetfrom: -03:00,
                        rrule: Some(
                            Recur {
                                freq: Yearly,
                                until: None,
                                count: None,
                                interval: 1,
                                by_second: [],
                                by_minute: [],
                                by_hour: [],
                                by_day: [
                                    WeekdayNum {
                                        weekday: Saturday,
                                        ord: Some(
                                            2,
                                        ),
                                    },
                                ],
                                by_monthday: [],
                                by_yearday: [],
                                by_weekno: [],
                                by_month: [
                                    10,
                                ],
                                by_setpos: [],
                                wkst: None,
                            },
                        ),
                        comment: [],
                        rdate: [],
                        tzname: [
                            Text {
                                params: {},
                                text: ""Bras" ++ [237] ++ lit "lia daylight"",
                            },
                        ],
                        x_prop: {},
                        iana_prop: {},
                    },
                ],
                x_prop: {},
                iana_prop: {},
            },
        ],
        x_prop: {},
        iana_prop: {},
    },
)
") = true.
Proof. vm_compute. reflexivity. Qed.
(** tests/calendars/issue_27_multiple_periods_in_freebusy_multiple_freebusies.ics *)
Example file23 : shows (debug_result (g_vcalendar f32d) (vcalendar_of_str (crlf (lit "BEGIN:VCALENDAR
VERSION:2.0
PRODID:-//davmail.sf.net/NONSGML DavMail Calendar V1.1//EN
METHOD:REPLY
BEGIN:VFREEBUSY
DTSTAMP:20120131T123000Z
ORGANIZER:MAILTO:organizer@domain.tld
DTSTART:20120101T000000Z
DTEND:20120201T000000Z
UID:null
ATTENDEE:MAILTO:attendee@domain.tld
FREEBUSY;FBTYPE=BUSY:20120103T091500Z/20120103T101500Z
FREEBUSY;FBTYPE=BUSY:20120113T130000Z/20120113T150000Z
FREEBUSY;FBTYPE=BUSY:20120116T130000Z/20120116T150000Z
FREEBUSY;FBTYPE=BUSY:20120117T091500Z/20120117T101500Z
FREEBUSY;FBTYPE=BUSY:20120118T160000Z/20120118T163000Z
FREEBUSY;FBTYPE=BUSY:20120124T083000Z/20120124T093000Z
FREEBUSY;FBTYPE=BUSY:20120124T123000Z/20120124T143000Z
FREEBUSY;FBTYPE=BUSY:20120131T091500Z/20120131T101500Z
END:VFREEBUSY
END:VCALENDAR
")))) (lit "Ok(
    VCalendar {
        prodid: Text {
            params: {},
            text: ""-//davmail.sf.net/NONSGML DavMail Calendar V1.1//EN"",
        },
        version: Text {
            params: {},
            text: ""2.0"",
        },
        calscale: None,
        method: Some(
            Text {
                params: {},
                text: ""REPLY"",
            },
        ),
        alarms: [],
        events: [],
        freebusy: [
            VFreebusy {
                dtstamp: Local(
                    2012-01-31T13:30:00+01:00,
                ),
                uid: Text {
                    params: {},
                    text: ""null"",
                },
                contact: None,
                dtstart: Some(
                    DateTime(
                        Local(
                            2012-01-01T01:00:00+01:00,
                        ),
                    ),
                ),
                dtend: Some(
                    DateTime(
                        Local(
                            2012-02-01T01:00:00+01:00,
                        ),
                    ),
                ),
                organizer: Some(
                    Uri {
                        params: {},
                        uri: ""MAILTO:organizer@domain.tld"",
                    },
                ),
                url: None,
                attendee: [
                    Uri {
                        params: {},
                        uri: ""MAILTO:attendee@domain.tld"",
                    },
                ],
                comment: [],
                freebusy: [
                    StartEnd(
                        StartEnd {
                            start: Local(
                                2012-01-03T10:15:00+01:00,
                            ),
                            end: Local(
                                2012-01-03T11:15:00+01:00,
                            ),
                        },
                    ),
                    StartEnd(
                        StartEnd {
                            start: Local(
                                2012-01-13T14:00:00+01:00,
                            ),
                            end: Local(
                                2012-01-13T16:00:00+01:00,
                            ),
                        },
                    ),
                    StartEnd(
                        StartEnd {
                            start: Local(
                                2012-01-16T14:00:00+01:00,
                            ),
                            end: Local(
                                2012-01-16T16:00:00+01:00,
                            ),
                        },
                    ),
                    StartEnd(
                        StartEnd {
                            start: Local(
                                2012-01-17T10:15:00+01:00,
                            ),
                            end: Local(
                                2012-01-17T11:15:00+01:00,
                            ),
                        },
                    ),
                    StartEnd(
                        StartEnd {
                            start: Local(
                                2012-01-18T17:00:00+01:00,
                            ),
                            end: Local(
                                2012-01-18T17:30:00+01:00,
                            ),
                        },
                    ),
                    StartEnd(
                        StartEnd {
                            start: Local(
                                2012-01-24T09:30:00+01:00,
                            ),
                            end: Local(
                                2012-01-24T10:30:00+01:00,
                            ),
                        },
                    ),
                    StartEnd(
                        StartEnd {
                            start: Local(
                                2012-01-24T13:30:00+01:00,
                            ),
                            end: Local(
                                2012-01-24T15:30:00+01:00,
                            ),
                        },
                    ),
                    StartEnd(
                        StartEnd {
                            start: Local(
                                2012-01-31T10:15:00+01:00,
                            ),
                            end: Local(
                                2012-01-31T11:15:00+01:00,
                            ),
                        },
                    ),
                ],
                rstatus: [],
                x_prop: {},
                iana_prop: {},
            },
        ],
        journals: [],
        todo: [],
        timezones: [],
        x_prop: {},
        iana_prop: {},
    },
)
") = true.
Proof. vm_compute. reflexivity. Qed.
(** tests/calendars/issue_27_multiple_periods_in_freebusy_one_freebusy.ics *)
Example file24 : shows (debug_result (g_vcalendar f32d) (vcalendar_of_str (crlf (lit "BEGIN:VCALENDAR
VERSION:2.0
PRODID:-//davmail.sf.net/NONSGML DavMail Calendar V1.1//EN
METHOD:REPLY
BEGIN:VFREEBUSY
DTSTAMP:20120131T123000Z
ORGANIZER:MAILTO:organizer@domain.tld
DTSTART:20120101T000000Z
DTEND:20120201T000000Z
UID:null
ATTENDEE:MAILTO:attendee@domain.tld
FREEBUSY;FBTYPE=BUSY:20120103T091500Z/20120103T101500Z,20120113T130000Z/20120113T150000Z,20120116T130000Z/20120116T150000Z,20120117T091500Z/20120117T101500Z,20120118T160000Z/20120118T163000Z,20120124T083000Z/20120124T093000Z,20120124T123000Z/20120124T143000Z,20120131T091500Z/20120131T101500Z
END:VFREEBUSY
END:VCALENDAR
")))) (lit "Ok(
    VCalendar {
        prodid: Text {
            params: {},
            text: ""-//davmail.sf.net/NONSGML DavMail Calendar V1.1//EN"",
        },
        version: Text {
            params: {},
            text: ""2.0"",
        },
        calscale: None,
        method: Some(
            Text {
                params: {},
                text: ""REPLY"",
            },
        ),
        alarms: [],
        events: [],
        freebusy: [
            VFreebusy {
                dtstamp: Local(
                    2012-01-31T13:30:00+01:00,
                ),
                uid: Text {
                    params: {},
                    text: ""null"",
                },
                contact: None,
                dtstart: Some(
                    DateTime(
                        Local(
                            2012-01-01T01:00:00+01:00,
                        ),
                    ),
                ),
                dtend: Some(
                    DateTime(
                        Local(
                            2012-02-01T01:00:00+01:00,
                        ),
                    ),
                ),
                organizer: Some(
                    Uri {
                        params: {},
                        uri: ""MAILTO:organizer@domain.tld"",
                    },
                ),
                url: None,
                attendee: [
                    Uri {
                        params: {},
                        uri: ""MAILTO:attendee@domain.tld"",
                    },
                ],
                comment: [],
                freebusy: [
                    StartEnd(
                        StartEnd {
                            start: Local(
                                2012-01-03T10:15:00+01:00,
                            ),
                            end: Local(
                                2012-01-03T11:15:00+01:00,
                            ),
                        },
                    ),
                    StartEnd(
                        StartEnd {
                            start: Local(
                                2012-01-13T14:00:00+01:00,
                            ),
                            end: Local(
                                2012-01-13T16:00:00+01:00,
                            ),
                        },
                    ),
                    StartEnd(
                        StartEnd {
                            start: Local(
                                2012-01-16T14:00:00+01:00,
                            ),
                            end: Local(
                                2012-01-16T16:00:00+01:00,
                            ),
                        },
                    ),
                    StartEnd(
                        StartEnd {
                            start: Local(
                                2012-01-17T10:15:00+01:00,
                            ),
                            end: Local(
                                2012-01-17T11:15:00+01:00,
                            ),
                        },
                    ),
                    StartEnd(
                        StartEnd {
                            start: Local(
                                2012-01-18T17:00:00+01:00,
                            ),
                            end: Local(
                                2012-01-18T17:30:00+01:00,
                            ),
                        },
                    ),
                    StartEnd(
                        StartEnd {
                            start: Local(
                                2012-01-24T09:30:00+01:00,
                            ),
                            end: Local(
                                2012-01-24T10:30:00+01:00,
                            ),
                        },
                    ),
                    StartEnd(
                        StartEnd {
                            start: Local(
                                2012-01-24T13:30:00+01:00,
                            ),
                            end: Local(
                                2012-01-24T15:30:00+01:00,
                            ),
                        },
                    ),
                    StartEnd(
                        StartEnd {
                            start: Local(
                                2012-01-31T10:15:00+01:00,
                            ),
                            end: Local(
                                2012-01-31T11:15:00+01:00,
                            ),
                        },
                    ),
                ],
                rstatus: [],
                x_prop: {},
                iana_prop: {},
            },
        ],
        journals: [],
        todo: [],
        timezones: [],
        x_prop: {},
        iana_prop: {},
    },
)
") = true.
Proof. vm_compute. reflexivity. Qed.
(** tests/calendars/issue_322_expected_calendar.ics *)
Example file25 : shows (debug_result (g_vcalendar f32d) (vcalendar_of_str (crlf (lit "BEGIN:VCALENDAR
VERSION:2.0
PRODID:collective/icalendar
BEGIN:VEVENT
DTSTAMP:20221108T080105Z
DTSTART:20220101
UID:636a0cc1dbd5a1667894465@icalendar
SUMMARY:Event with bare string as argument for categories
CATEGORIES:Lecture
END:VEVENT
END:VCALENDAR
")))) (lit "Ok(
    VCalendar {
        prodid: Text {
            params: {},
            text: ""collective/icalendar"",
        },
        version: Text {
            params: {},
            text: ""2.0"",
        },
        calscale: None,
        method: None,
        alarms: [],
        events: [
            VEvent {
                dtstamp: Local(
                    2022-11-08T09:01:05+01:00,
                ),
                uid: Text {
                    params: {},
                    text: ""636a0cc1dbd5a1667894465@icalendar"",
                },
                dtstart: Date(
                    2022-01-01,
                ),
                class: None,
                created: None,
                description: None,
                geo: None,
                last_modified: None,
                location: None,
                organizer: None,
                priority: None,
                sequence: None,
                status: None,
                summary: Some(
                    Text {
                        params: {},
                        text: ""Event with bare string as argument for categories"",
                    },
                ),
                transp: None,
                url: None,
                recurid: None,
                rrule: None,
                dtend: None,
                duration: None,
                attach: [],
                attendee: [],
                categories: [
                    Text {
                        params: {},
                        text: ""Lecture"",
                    },
                ],
                comment: [],
                contact: [],
                exdate: [],
                rstatus: [],
                related_to: [],
                resources: [],
                rdate: [],
                alarms: [],
                x_prop: {},
                iana_prop: {},
            },
        ],
        freebusy: [],
        journals: [],
        todo: [],
        timezones: [],
        x_prop: {},
        iana_prop: {},
    },
)
") = true.
Proof. vm_compute. reflexivity. Qed.
(** tests/calendars/issue_348_exception_parsing_value.ics *)
Example file26 : is_err (vcalendar_of_str (crlf (lit "BEGIN:VCALENDAR
CALSCALE:GREGORIAN
METHOD:PUBLISH
VERSION:2.0
PRODID:-//Sixt//RAC//EN
BEGIN:VFREEBUSY
FREEBUSY;FBTYPE=FREE:20190624T063000Z/20190624T163000Z
ORGANIZER;CN=Sixt SE
X-ORGANIZER2;CN=Sixt SE;CN2=Test!
UID:SIXT_9879691160
DTSTAMP:20190612T104813Z
END:VFREEBUSY
BEGIN:VEVENT
CLASS:PUBLIC
DESCRIPTION:\nVotre v" ++ [233] ++ lit "hicule avec le num" ++ [233] ++ lit "ro de r" ++ [233] ++ lit "servation xxxxxxxxxxx sera " ++ [224] ++ lit " votre disposition le 24.06.2019 " ++ [224] ++ lit " 08:30 heures (heure locale). Retour pr" ++ [233] ++ lit "vu : Ferney-Voltaire AP de Gen" ++ [232] ++ lit "ve Cointrin Sect(F), le 24.06.2019 " ++ [224] ++ lit " 18:30 heures.\nVous trouverez des informations relatives " ++ [224] ++ lit " la modification ou " ++ [224] ++ lit "  l'annulation de votre r" ++ [233] ++ lit "servation sous http://www.sixt.fr\n
DTSTART:20190624T063000Z
DTSTAMP:20190612T104813Z
DTEND:20190624T163000Z
LOCATION:Sixt Gen" ++ [232] ++ lit "ve A" ++ [233] ++ lit "roport secteur France, AP de Gen" ++ [232] ++ lit "ve Cointrin Sect(F), 01210 Ferney-Voltaire, FR
PRIORITY:5
TRANSP:TRANSPARENT
SEQUENCE:0
STATUS:CONFIRMED
SUMMARY:Sixt : d" ++ [233] ++ lit "tails de votre r" ++ [233] ++ lit "servation
UID:SIXT_9879691160
BEGIN:VALARM
TRIGGER:-PT30M
ACTION:DISPLAY
DESCRIPTION:\nLe v" ++ [233] ++ lit "hicule avec la n" ++ [176] ++ lit " de r" ++ [233] ++ lit "servation xxxxxxxxxxx sera " ++ [224] ++ lit " votre disposition entre 24.06.2019 et 08:30 heures (heure locale) " ++ [224] ++ lit " l'agence Gen" ++ [232] ++ lit "ve A" ++ [233] ++ lit "roport secteur France. Retour pr" ++ [233] ++ lit "vu : Ferney-Voltaire AP de Gen" ++ [232] ++ lit "ve Cointrin Sect(F), le 24.06.2019 " ++ [224] ++ lit " 18:30 heures.\nTrouver des informations de localisation et modifier / annuler votre  r" ++ [233] ++ lit "servation ici: http://www.sixt.fr\n
END:VALARM
END:VEVENT
END:VCALENDAR
"))) = true.
Proof. vm_compute. reflexivity. Qed.
(** tests/calendars/issue_466_convert_tzid_with_slash.ics *)
Example file27 : shows (debug_result (g_vcalendar f32d) (vcalendar_of_str (crlf (lit "BEGIN:VCALENDAR
VERSION:2.0
PRODID:collective/icalendar
BEGIN:VEVENT
UID:0cab49a0-1167-40f0-bfed-ecb4d117047d
DTSTAMP:20221019T102950Z
DTSTART;TZID=/Europe/Stockholm:20221021T200000
DTEND;TZID=/Europe/Stockholm:20221021T210000
SUMMARY:Just chatting
DESCRIPTION:Just Chatting.
CATEGORIES:Just Chatting
RRULE:FREQ=WEEKLY;BYDAY=FR
END:VEVENT
END:VCALENDAR
")))) (lit "Ok(
    VCalendar {
        prodid: Text {
            params: {},
            text: ""collective/icalendar"",
        },
        version: Text {
            params: {},
            text: ""2.0"",
        },
        calscale: None,
        method: None,
        alarms: [],
        events: [
            VEvent {
                dtstamp: Local(
                    2022-10-19T12:29:50+02:00,
                ),
                uid: Text {
                    params: {},
                    text: ""0cab49a0-1167-40f0-bfed-ecb4d117047d"",
                },
                dtstart: DateTime(
                    Naive(
                        2022-10-21T20:00:00,
                    ),
                ),
                class: None,
                created: None,
                description: Some(
                    Text {
                        params: {},
                        text: ""Just Chatting."",
                    },
                ),
                geo: None,
                last_modified: None,
                location: None,
                organizer: None,
                priority: None,
                sequence: None,
                status: None,
                summary: Some(
                    Text {
                        params: {},
                        text: ""Just chatting"",
                    },
                ),
                transp: None,
                url: None,
                recurid: None,
                rrule: Some(
                    Recur {
                        freq: Weekly,
                        until: None,
                        count: None,
                        interval: 1,
                        by_second: [],
                        by_minute: [],
                        by_hour: [],
                        by_day: [
                            WeekdayNum {
                                weekday: Friday,
                                ord: None,
                            },
                        ],
                        by_monthday: [],
                        by_yearday: [],
                        by_weekno: [],
                        by_month: [],
                        by_setpos: [],
                        wkst: None,
                    },
                ),
                dtend: Some(
                    DateTime(
                        Naive(
                            2022-10-21T21:00:00,
                        ),
                    ),
                ),
                duration: None,
                attach: [],
                attendee: [],
                categories: [
                    Text {
                        params: {},
                        text: ""Just Chatting"",
                    },
                ],
                comment: [],
                contact: [],
                exdate: [],
                rstatus: [],
                related_to: [],
                resources: [],
                rdate: [],
                alarms: [],
                x_prop: {},
                iana_prop: {},
            },
        ],
        freebusy: [],
        journals: [],
        todo: [],
        timezones: [],
        x_prop: {},
        iana_prop: {},
    },
)
") = true.
Proof. vm_compute. reflexivity. Qed.
(** tests/calendars/issue_466_respect_unique_timezone.ics *)
Example file28 : shows (debug_result (g_vcalendar f32d) (vcalendar_of_str (crlf (lit "BEGIN:VCALENDAR
VERSION:2.0
PRODID:collective/icalendar
BEGIN:VTIMEZONE
TZID:/Europe/CUSTOM
BEGIN:DAYLIGHT
TZOFFSETFROM:+0100
TZOFFSETTO:+0200
TZNAME:CEST
DTSTART:19700329T020000
RRULE:FREQ=YEARLY;BYMONTH=3;BYDAY=-1SU
END:DAYLIGHT
BEGIN:STANDARD
TZOFFSETFROM:+0200
TZOFFSETTO:+0100
TZNAME:CET
DTSTART:19701025T030000
RRULE:FREQ=YEARLY;BYMONTH=10;BYDAY=-1SU
END:STANDARD
END:VTIMEZONE
BEGIN:VEVENT
UID:0cab49a0-1167-40f0-bfed-ecb4d117047d
DTSTAMP:20221019T102950Z
DTSTART;TZID=/Europe/CUSTOM:20221021T200000
DTEND;TZID=/Europe/CUSTOM:20221021T210000
SUMMARY:Just chatting
DESCRIPTION:Just Chatting.
CATEGORIES:Just Chatting
RRULE:FREQ=WEEKLY;BYDAY=FR
END:VEVENT
END:VCALENDAR
")))) (lit "Ok(
    VCalendar {
        prodid: Text {
            params: {},
            text: ""collective/icalendar"",
        },
        version: Text {
            params: {},
            text: ""2.0"",
        },
        calscale: None,
        method: None,
        alarms: [],
        events: [
            VEvent {
                dtstamp: Local(
                    2022-10-19T12:29:50+02:00,
                ),
                uid: Text {
                    params: {},
                    text: ""0cab49a0-1167-40f0-bfed-ecb4d117047d"",
                },
                dtstart: DateTime(
                    Naive(
                        2022-10-21T20:00:00,
                    ),
                ),
                class: None,
                created: None,
                description: Some(
                    Text {
                        params: {},
                        text: ""Just Chatting."",
                    },
                ),
                geo: None,
                last_modified: None,
                location: None,
                organizer: None,
                priority: None,
                sequence: None,
                status: None,
                summary: Some(
                    Text {
                        params: {},
                        text: ""Just chatting"",
                    },
                ),
                transp: None,
                url: None,
                recurid: None,
                rrule: Some(
                    Recur {
                        freq: Weekly,
                        until: None,
                        count: None,
                        interval: 1,
                        by_second: [],
                        by_minute: [],
                        by_hour: [],
                        by_day: [
                            WeekdayNum {
                                weekday: Friday,
                                ord: None,
                            },
                        ],
                        by_monthday: [],
                        by_yearday: [],
                        by_weekno: [],
                        by_month: [],
                        by_setpos: [],
                        wkst: None,
                    },
                ),
                dtend: Some(
                    DateTime(
                        Naive(
                            2022-10-21T21:00:00,
                        ),
                    ),
                ),
                duration: None,
                attach: [],
                attendee: [],
                categories: [
                    Text {
                        params: {},
                        text: ""Just Chatting"",
                    },
                ],
                comment: [],
                contact: [],
                exdate: [],
                rstatus: [],
                related_to: [],
                resources: [],
                rdate: [],
                alarms: [],
                x_prop: {},
                iana_prop: {},
            },
        ],
        freebusy: [],
        journals: [],
        todo: [],
        timezones: [
            VTimezone {
                tzid: Text {
                    params: {},
                    text: ""/Europe/CUSTOM"",
                },
                last_modified: None,
                tzurl: None,
                standard: [
                    Standard {
                        dtstart: DateTime(
                            Naive(
                                1970-10-25T03:00:00,
                            ),
                        ),
                        tzoffsetto: +01:00,
                        tzoffsetfrom: +02:00,
                        rrule: Some(
                            Recur {
                                freq: Yearly,
                                until: None,
                                count: None,
                                interval: 1,
                                by_second: [],
                                by_minute: [],
                                by_hour: [],
                                by_day: [
                                    WeekdayNum {
                                        weekday: Sunday,
                                        ord: Some(
                                            -1,
                                        ),
                                    },
                                ],
                                by_monthday: [],
                                by_yearday: [],
                                by_weekno: [],
                                by_month: [
                                    10,
                                ],
                                by_setpos: [],
                                wkst: None,
                            },
                        ),
                        comment: [],
                        rdate: [],
                        tzname: [
                            Text {
                                params: {},
                                text: ""CET"",
                            },
                        ],
                        x_prop: {},
                        iana_prop: {},
                    },
                ],
                daylight: [
                    Daylight {
                        dtstart: DateTime(
                            Naive(
                                1970-03-29T02:00:00,
                            ),
                        ),
                        tzoffsetto: +02:00,
                        tzoffsetfrom: +01:00,
                        rrule: Some(
                            Recur {
                                freq: Yearly,
                                until: None,
                                count: None,
                                interval: 1,
                                by_second: [],
                                by_minute: [],
                                by_hour: [],
                                by_day: [
                                    WeekdayNum {
                                        weekday: Sunday,
                                        ord: Some(
                                            -1,
                                        ),
                                    },
                                ],
                                by_monthday: [],
                                by_yearday: [],
                                by_weekno: [],
                                by_month: [
                                    3,
                                ],
                                by_setpos: [],
                                wkst: None,
                            },
                        ),
                        comment: [],
                        rdate: [],
                        tzname: [
                            Text {
                                params: {},
                                text: ""CEST"",
                            },
                        ],
                        x_prop: {},
                        iana_prop: {},
                    },
                ],
                x_prop: {},
                iana_prop: {},
            },
        ],
        x_prop: {},
        iana_prop: {},
    },
)
") = true.
Proof. vm_compute. reflexivity. Qed.
(** tests/calendars/issue_526_calendar_with_different_events.ics *)
Example file29 : shows (debug_result (g_vcalendar f32d) (vcalendar_of_str (crlf (lit "BEGIN:VCALENDAR
VERSION:2.0
PRODID:icalendar-2023
BEGIN:VEVENT
UID:ical-jacadzaca-3
SUMMARY: Some very different event ':'
DTSTART;TZID=""Western/Central Europe"";VALUE=DATE-TIME:20211101T160000
DTEND;TZID=""Western/Central Europe"";VALUE=DATE-TIME:20211101T163000
DTSTAMP:20211004T150245Z
END:VEVENT
BEGIN:VEVENT
UID:ical-jacadzaca-4
SUMMARY: Some very different other event
DTSTART;TZID=""Western/Central Europe"";VALUE=DATE-TIME:20211101T164000
DTEND;TZID=""Western/Central Europe"";VALUE=DATE-TIME:20211101T165000
DTSTAMP:20211004T150245Z
END:VEVENT
END:VCALENDAR
")))) (lit "Ok(
    VCalendar {
        prodid: Text {
            params: {},
            text: ""icalendar-2023"",
        },
        version: Text {
            params: {},
            text: ""2.0"",
        },
        calscale: None,
        method: None,
        alarms: [],
        events: [
            VEvent {
                dtstamp: Local(
                    2021-10-04T17:02:45+02:00,
                ),
                uid: Text {
                    params: {},
                    text: ""ical-jacadzaca-3"",
                },
                dtstart: DateTime(
                    Naive(
                        2021-11-01T16:00:00,
                    ),
                ),
                class: None,
                created: None,
                description: None,
                geo: None,
                last_modified: None,
                location: None,
                organizer: None,
                priority: None,
                sequence: None,
                status: None,
                summary: Some(
                    Text {
                        params: {},
                        text: "" Some very different event ':'"",
                    },
                ),
                transp: None,
                url: None,
                recurid: None,
                rrule: None,
                dtend: Some(
                    DateTime(
                        Naive(
                            2021-11-01T16:30:00,
                        ),
                    ),
                ),
                duration: None,
                attach: [],
                attendee: [],
                categories: [],
                comment: [],
                contact: [],
                exdate: [],
                rstatus: [],
                related_to: [],
                resources: [],
                rdate: [],
                alarms: [],
                x_prop: {},
                iana_prop: {},
            },
            VEvent {
                dtstamp: Local(
                    2021-10-04T17:02:45+02:00,
                ),
                uid: Text {
                    params: {},
                    text: ""ical-jacadzaca-4"",
                },
                dtstart: DateTime(
                    Naive(
                        2021-11-01T16:40:00,
                    ),
                ),
                class: None,
                created: None,
                description: None,
                geo: None,
                last_modified: None,
                location: None,
                organizer: None,
                priority: None,
                sequence: None,
                status: None,
                summary: Some(
                    Text {
                        params: {},
                        text: "" Some very different other event"",
                    },
                ),
                transp: None,
                url: None,
                recurid: None,
                rrule: None,
                dtend: Some(
                    DateTime(
                        Naive(
                            2021-11-01T16:50:00,
                        ),
                    ),
                ),
                duration: None,
                attach: [],
                attendee: [],
                categories: [],
                comment: [],
                contact: [],
                exdate: [],
                rstatus: [],
                related_to: [],
                resources: [],
                rdate: [],
                alarms: [],
                x_prop: {},
                iana_prop: {},
            },
        ],
        freebusy: [],
        journals: [],
        todo: [],
        timezones: [],
        x_prop: {},
        iana_prop: {},
    },
)
") = true.
Proof. vm_compute. reflexivity. Qed.
(** tests/calendars/issue_526_calendar_with_event_subset.ics *)
Example file30 : shows (debug_result (g_vcalendar f32d) (vcalendar_of_str (crlf (lit "BEGIN:VCALENDAR
VERSION:2.0
PRODID:icalendar-2023
BEGIN:VEVENT
UID:1
SUMMARY: Some event ':'
DTSTART;TZID=""Western/Central Europe"";VALUE=DATE-TIME:20211101T160000
DTEND;TZID=""Western/Central Europe"";VALUE=DATE-TIME:20211101T163000
DTSTAMP:20211004T150245Z
END:VEVENT
END:VCALENDAR
")))) (lit "Ok(
    VCalendar {
        prodid: Text {
            params: {},
            text: ""icalendar-2023"",
        },
        version: Text {
            params: {},
            text: ""2.0"",
        },
        calscale: None,
        method: None,
        alarms: [],
        events: [
            VEvent {
                dtstamp: Local(
                    2021-10-04T17:02:45+02:00,
                ),
                uid: Text {
                    params: {},
                    text: ""1"",
                },
                dtstart: DateTime(
                    Naive(
                        2021-11-01T16:00:00,
                    ),
                ),
                class: None,
                created: None,
                description: None,
                geo: None,
                last_modified: None,
                location: None,
                organizer: None,
                priority: None,
                sequence: None,
                status: None,
                summary: Some(
                    Text {
                        params: {},
                        text: "" Some event ':'"",
                    },
                ),
                transp: None,
                url: None,
                recurid: None,
                rrule: None,
                dtend: Some(
                    DateTime(
                        Naive(
                            2021-11-01T16:30:00,
                        ),
                    ),
                ),
                duration: None,
                attach: [],
                attendee: [],
                categories: [],
                comment: [],
                contact: [],
                exdate: [],
                rstatus: [],
                related_to: [],
                resources: [],
                rdate: [],
                alarms: [],
                x_prop: {},
                iana_prop: {},
            },
        ],
        freebusy: [],
        journals: [],
        todo: [],
        timezones: [],
        x_prop: {},
        iana_prop: {},
    },
)
") = true.
Proof. vm_compute. reflexivity. Qed.
(** tests/calendars/issue_526_calendar_with_events.ics *)
Example file31 : shows (debug_result (g_vcalendar f32d) (vcalendar_of_str (crlf (lit "BEGIN:VCALENDAR
VERSION:2.0
PRODID:icalendar-2023
BEGIN:VEVENT
UID:1
SUMMARY: Some event ':'
DTSTART;TZID=""Western/Central Europe"";VALUE=DATE-TIME:20211101T160000
DTEND;TZID=""Western/Central Europe"";VALUE=DATE-TIME:20211101T163000
DTSTAMP:20211004T150245Z
END:VEVENT
BEGIN:VEVENT
UID:2
SUMMARY: Some other event
DTSTART;TZID=""Western/Central Europe"";VALUE=DATE-TIME:20211101T164000
DTEND;TZID=""Western/Central Europe"";VALUE=DATE-TIME:20211101T165000
DTSTAMP:20211004T150245Z
END:VEVENT
END:VCALENDAR
")))) (lit "Ok(
    VCalendar {
        prodid: Text {
            params: {},
            text: ""icalendar-2023"",
        },
        version: Text {
            params: {},
            text: ""2.0"",
        },
        calscale: None,
        method: None,
        alarms: [],
        events: [
            VEvent {
                dtstamp: Local(
                    2021-10-04T17:02:45+02:00,
                ),
                uid: Text {
                    params: {},
                    text: ""1"",
                },
                dtstart: DateTime(
                    Naive(
                        2021-11-01T16:00:00,
                    ),
                ),
                class: None,
                created: None,
                description: None,
                geo: None,
                last_modified: None,
                location: None,
                organizer: None,
                priority: None,
                sequence: None,
                status: None,
                summary: Some(
                    Text {
                        params: {},
                        text: "" Some event ':'"",
                    },
                ),
                transp: None,
                url: None,
                recurid: None,
                rrule: None,
                dtend: Some(
                    DateTime(
                        Naive(
                            2021-11-01T16:30:00,
                        ),
                    ),
                ),
                duration: None,
                attach: [],
                attendee: [],
                categories: [],
                comment: [],
                contact: [],
                exdate: [],
                rstatus: [],
                related_to: [],
                resources: [],
                rdate: [],
                alarms: [],
                x_prop: {},
                iana_prop: {},
            },
            VEvent {
                dtstamp: Local(
                    2021-10-04T17:02:45+02:00,
                ),
                uid: Text {
                    params: {},
                    text: ""2"",
                },
                dtstart: DateTime(
                    Naive(
                        2021-11-01T16:40:00,
                    ),
                ),
                class: None,
                created: None,
                description: None,
                geo: None,
                last_modified: None,
                location: None,
                organizer: None,
                priority: None,
                sequence: None,
                status: None,
                summary: Some(
                    Text {
                        params: {},
                        text: "" Some other event"",
                    },
                ),
                transp: None,
                url: None,
                recurid: None,
                rrule: None,
                dtend: Some(
                    DateTime(
                        Naive(
                            2021-11-01T16:50:00,
                        ),
                    ),
                ),
                duration: None,
                attach: [],
                attendee: [],
                categories: [],
                comment: [],
                contact: [],
                exdate: [],
                rstatus: [],
                related_to: [],
                resources: [],
                rdate: [],
                alarms: [],
                x_prop: {},
                iana_prop: {},
            },
        ],
        freebusy: [],
        journals: [],
        todo: [],
        timezones: [],
        x_prop: {},
        iana_prop: {},
    },
)
") = true.
Proof. vm_compute. reflexivity. Qed.
(** tests/calendars/issue_526_calendar_with_shuffeled_events.ics *)
Example file32 : shows (debug_result (g_vcalendar f32d) (vcalendar_of_str (crlf (lit "BEGIN:VCALENDAR
VERSION:2.0
PRODID:icalendar-2023
BEGIN:VEVENT
UID:2
SUMMARY: Some other event
DTSTART;TZID=""Western/Central Europe"";VALUE=DATE-TIME:20211101T164000
DTEND;TZID=""Western/Central Europe"";VALUE=DATE-TIME:20211101T165000
DTSTAMP:20211004T150245Z
END:VEVENT
BEGIN:VEVENT
UID:1
SUMMARY: Some event ':'
DTSTART;TZID=""Western/Central Europe"";VALUE=DATE-TIME:20211101T160000
DTEND;TZID=""Western/Central Europe"";VALUE=DATE-TIME:20211101T163000
DTSTAMP:20211004T150245Z
END:VEVENT
END:VCALENDAR
")))) (lit "Ok(
    VCalendar {
        prodid: Text {
            params: {},
            text: ""icalendar-2023"",
        },
        version: Text {
            params: {},
            text: ""2.0"",
        },
        calscale: None,
        method: None,
        alarms: [],
        events: [
            VEvent {
                dtstamp: Local(
                    2021-10-04T17:02:45+02:00,
                ),
                uid: Text {
                    params: {},
                    text: ""2"",
                },
                dtstart: DateTime(
                    Naive(
                        2021-11-01T16:40:00,
                    ),
                ),
                class: None,
                created: None,
                description: None,
                geo: None,
                last_modified: None,
                location: None,
                organizer: None,
                priority: None,
                sequence: None,
                status: None,
                summary: Some(
                    Text {
                        params: {},
                        text: "" Some other event"",
                    },
                ),
                transp: None,
                url: None,
                recurid: None,
                rrule: None,
                dtend: Some(
                    DateTime(
                        Naive(
                            2021-11-01T16:50:00,
                        ),
                    ),
                ),
                duration: None,
                attach: [],
                attendee: [],
                categories: [],
                comment: [],
                contact: [],
                exdate: [],
                rstatus: [],
                related_to: [],
                resources: [],
                rdate: [],
                alarms: [],
                x_prop: {},
                iana_prop: {},
            },
            VEvent {
                dtstamp: Local(
                    2021-10-04T17:02:45+02:00,
                ),
                uid: Text {
                    params: {},
                    text: ""1"",
                },
                dtstart: DateTime(
                    Naive(
                        2021-11-01T16:00:00,
                    ),
                ),
                class: None,
                created: None,
                description: None,
                geo: None,
                last_modified: None,
                location: None,
                organizer: None,
                priority: None,
                sequence: None,
                status: None,
                summary: Some(
                    Text {
                        params: {},
                        text: "" Some event ':'"",
                    },
                ),
                transp: None,
                url: None,
                recurid: None,
                rrule: None,
                dtend: Some(
                    DateTime(
                        Naive(
                            2021-11-01T16:30:00,
                        ),
                    ),
                ),
                duration: None,
                attach: [],
                attendee: [],
                categories: [],
                comment: [],
                contact: [],
                exdate: [],
                rstatus: [],
                related_to: [],
                resources: [],
                rdate: [],
                alarms: [],
                x_prop: {},
                iana_prop: {},
            },
        ],
        freebusy: [],
        journals: [],
        todo: [],
        timezones: [],
        x_prop: {},
        iana_prop: {},
    },
)
") = true.
Proof. vm_compute. reflexivity. Qed.
(** tests/calendars/multiple_calendar_components.ics *)
Example file33 : is_err (vcalendar_of_str (crlf (lit "BEGIN:VCALENDAR
VERSION

 :2.0
PRODID

 :-//Mozilla.org/NONSGML Mozilla Calendar V1.0//EN
METHOD

 :PUBLISH
BEGIN:VEVENT
UID

 :956630271
SUMMARY

 :Christmas Day
CLASS

 :PUBLIC
X-MOZILLA-ALARM-DEFAULT-UNITS

 :minutes
X-MOZILLA-ALARM-DEFAULT-LENGTH

 :15
X-MOZILLA-RECUR-DEFAULT-UNITS

 :weeks
X-MOZILLA-RECUR-DEFAULT-INTERVAL

 :1
DTSTART

 ;VALUE=DATE
 :20031225
DTEND

 ;VALUE=DATE
 :20031226
DTSTAMP

 :20020430T114937Z
END:VEVENT
END:VCALENDAR
BEGIN:VCALENDAR
VERSION
 :2.0
PRODID
 :-//Mozilla.org/NONSGML Mozilla Calendar V1.0//EN
METHOD
 :PUBLISH
BEGIN:VEVENT
UID
 :911737808
SUMMARY
 :Boxing Day
CLASS
 :PUBLIC
X-MOZILLA-ALARM-DEFAULT-UNITS
 :minutes
X-MOZILLA-ALARM-DEFAULT-LENGTH
 :15
X-MOZILLA-RECUR-DEFAULT-UNITS
 :weeks
X-MOZILLA-RECUR-DEFAULT-INTERVAL
 :1
DTSTART
 ;VALUE=DATE
 :20030501
DTSTAMP
 :20020430T114937Z
END:VEVENT
BEGIN:VEVENT
UID
 :wh4t3v3r
DTSTART;VALUE=DATE:20031225
SUMMARY:Christmas again!
END:VEVENT
END:VCALENDAR
"))) = true.
Proof. vm_compute. reflexivity. Qed.
(** tests/calendars/pacific_fiji.ics *)
Example file34 : shows (debug_result (g_vcalendar f32d) (vcalendar_of_str (crlf (lit "BEGIN:VCALENDAR
PRODID:-//tzurl.org//NONSGML Olson 2014g//EN
VERSION:2.0
BEGIN:VTIMEZONE
TZID:custom_Pacific/Fiji
TZURL:http://tzurl.org/zoneinfo/Pacific/Fiji
X-LIC-LOCATION:Pacific/Fiji
BEGIN:DAYLIGHT
TZOFFSETFROM:+1200
TZOFFSETTO:+1300
DTSTART:20101024T020000
RRULE:FREQ=YEARLY;BYMONTH=10;BYMONTHDAY=21,22,23,24,25,26,27;BYDAY=SU
END:DAYLIGHT
BEGIN:STANDARD
TZOFFSETFROM:+1300
TZOFFSETTO:+1200
DTSTART:20140119T020000
RRULE:FREQ=YEARLY;BYMONTH=1;BYMONTHDAY=18,19,20,21,22,23,24;BYDAY=SU
END:STANDARD
BEGIN:STANDARD
TZOFFSETFROM:+115544
TZOFFSETTO:+1200
DTSTART:19151026T000000
RDATE:19151026T000000
END:STANDARD
BEGIN:DAYLIGHT
TZOFFSETFROM:+1200
TZOFFSETTO:+1300
DTSTART:19981101T020000
RDATE:19981101T020000
RDATE:19991107T020000
RDATE:20091129T020000
END:DAYLIGHT
BEGIN:STANDARD
TZOFFSETFROM:+1300
TZOFFSETTO:+1200
DTSTART:19990228T030000
RDATE:19990228T030000
RDATE:20000227T030000
RDATE:20100328T030000
RDATE:20110306T030000
RDATE:20120122T030000
RDATE:20130120T030000
END:STANDARD
END:VTIMEZONE
BEGIN:VEVENT
UID:noend123
DTSTART;TZID=custom_Pacific/Fiji;VALUE=DATE-TIME:20140829T080000
DTSTAMP;TZID=custom_Pacific/Fiji;VALUE=DATE-TIME:20140829T100000
SUMMARY:an event with a custom tz name
END:VEVENT
END:VCALENDAR
")))) (lit "Ok(
    VCalendar {
        prodid: Text {
            params: {},
            text: ""-//tzurl.org//NONSGML Olson 2014g//EN"",
        },
        version: Text {
            params: {},
            text: ""2.0"",
        },
        calscale: None,
        method: None,
        alarms: [],
        events: [
            VEvent {
                dtstamp: Naive(
                    2014-08-29T10:00:00,
                ),
                uid: Text {
                    params: {},
                    text: ""noend123"",
                },
                dtstart: DateTime(
                    Naive(
                        2014-08-29T08:00:00,
                    ),
                ),
                class: None,
                created: None,
                description: None,
                geo: None,
                last_modified: None,
                location: None,
                organizer: None,
                priority: None,
                sequence: None,
                status: None,
                summary: Some(
                    Text {
                        params: {},
                        text: ""an event with a custom tz name"",
                    },
                ),
                transp: None,
                url: None,
                recurid: None,
                rrule: None,
                dtend: None,
                duration: None,
                attach: [],
                attendee: [],
                categories: [],
                comment: [],
                contact: [],
                exdate: [],
                rstatus: [],
                related_to: [],
                resources: [],
                rdate: [],
                alarms: [],
                x_prop: {},
                iana_prop: {},
            },
        ],
        freebusy: [],
        journals: [],
        todo: [],
        timezones: [
            VTimezone {
                tzid: Text {
                    params: {},
                    text: ""custom_Pacific/Fiji"",
                },
                last_modified: None,
                tzurl: Some(
                    Uri {
                        params: {},
                        uri: ""http://tzurl.org/zoneinfo/Pacific/Fiji"",
                    },
                ),
                standard: [
                    Standard {
                        dtstart: DateTime(
                            Naive(
                                2014-01-19T02:00:00,
                            ),
                        ),
                        tzoffsetto: +12:00,
                        tzoffsetfrom: +13:00,
                        rrule: Some(
                            Recur {
                                freq: Yearly,
                                until: None,
                                count: None,
                                interval: 1,
                                by_second: [],
                                by_minute: [],
                                by_hour: [],
                                by_day: [
                                    WeekdayNum {
                                        weekday: Sunday,
                                        ord: None,
                                    },
                                ],
                                by_monthday: [
                                    18,
                                    19,
                                    20,
                                    21,
                                    22,
                                    23,
                                    24,
                                ],
                                by_yearday: [],
                                by_weekno: [],
                                by_month: [
                                    1,
                                ],
                                by_setpos: [],
                                wkst: None,
                            },
                        ),
                        comment: [],
                        rdate: [],
                        tzname: [],
                        x_prop: {},
                        iana_prop: {},
                    },
                    Standard {
                        dtstart: DateTime(
                            Naive(
                                1915-10-26T00:00:00,
                            ),
                        ),
                        tzoffsetto: +12:00,
                        tzoffsetfrom: +11:55,
                        rrule: None,
                        comment: [],
                        rdate: [
                            Date(
                                [
                                    DateTime(
                                        Naive(
                                            1915-10-26T00:00:00,
                                        ),
                                    ),
                                ],
                            ),
                        ],
                        tzname: [],
                        x_prop: {},
                        iana_prop: {},
                    },
                    Standard {
                        dtstart: DateTime(
                            Naive(
                                1999-02-28T03:00:00,
                            ),
                        ),
                        tzoffsetto: +12:00,
                        tzoffsetfrom: +13:00,
                        rrule: None,
                        comment: [],
                        rdate: [
                            Date(
                                [
                                    DateTime(
                                        Naive(
                                            1999-02-28T03:00:00,
                                        ),
                                    ),
                                ],
                            ),
                            Date(
                                [
                                    DateTime(
                                        Naive(
                                            2000-02-27T03:00:00,
                                        ),
                                    ),
                                ],
                            ),
                            Date(
                                [
                                    DateTime(
                                        Naive(
                                            2010-03-28T03:00:00,
                                        ),
                                    ),
                                ],
                            ),
                            Date(
                                [
                                    DateTime(
                                        Naive(
                                            2011-03-06T03:00:00,
                                        ),
                                    ),
                                ],
                            ),
                            Date(
                                [
                                    DateTime(
                                        Naive(
                                            2012-01-22T03:00:00,
                                        ),
                                    ),
                                ],
                            ),
                            Date(
                                [
                                    DateTime(
                                        Naive(
                                            2013-01-20T03:00:00,
                                        ),
                                    ),
                                ],
                            ),
                        ],
                        tzname: [],
                        x_prop: {},
                        iana_prop: {},
                    },
                ],
                daylight: [
                    Daylight {
                        dtstart: DateTime(
                            Naive(
                                2010-10-24T02:00:00,
                            ),
                        ),
                        tzoffsetto: +13:00,
                        tzoffsetfrom: +12:00,
                        rrule: Some(
                            Recur {
                                freq: Yearly,
                                until: None,
                                count: None,
                                interval: 1,
                                by_second: [],
                                by_minute: [],
                                by_hour: [],
                                by_day: [
                                    WeekdayNum {
                                        weekday: Sunday,
                                        ord: None,
                                    },
                                ],
                                by_monthday: [
                                    21,
                                    22,
                                    23,
                                    24,
                                    25,
                                    26,
                                    27,
                                ],
                                by_yearday: [],
                                by_weekno: [],
                                by_month: [
                                    10,
                                ],
                                by_setpos: [],
                                wkst: None,
                            },
                        ),
                        comment: [],
                        rdate: [],
                        tzname: [],
                        x_prop: {},
                        iana_prop: {},
                    },
                    Daylight {
                        dtstart: DateTime(
                            Naive(
                                1998-11-01T02:00:00,
                            ),
                        ),
                        tzoffsetto: +13:00,
                        tzoffsetfrom: +12:00,
                        rrule: None,
                        comment: [],
                        rdate: [
                            Date(
                                [
                                    DateTime(
                                        Naive(
                                            1998-11-01T02:00:00,
                                        ),
                                    ),
                                ],
                            ),
                            Date(
                                [
                                    DateTime(
                                        Naive(
                                            1999-11-07T02:00:00,
                                        ),
                                    ),
                                ],
                            ),
                            Date(
                                [
                                    DateTime(
                                        Naive(
                                            2009-11-29T02:00:00,
                                        ),
                                    ),
                                ],
                            ),
                        ],
                        tzname: [],
                        x_prop: {},
                        iana_prop: {},
                    },
                ],
                x_prop: {
                    ""X-LIC-LOCATION"": ContentLine {
                        params: {},
                        value: ""Pacific/Fiji"",
                    },
                },
                iana_prop: {},
            },
        ],
        x_prop: {},
        iana_prop: {},
    },
)
") = true.
Proof. vm_compute. reflexivity. Qed.
(** tests/calendars/period_with_timezone.ics *)
Example file35 : shows (debug_result (g_vcalendar f32d) (vcalendar_of_str (crlf (lit "BEGIN:VCALENDAR
VERSION:2.0
PRODID:collective/icalendar
X-WR-CALNAME;VALUE=TEXT:Test RDATE
BEGIN:VTIMEZONE
TZID:America/Vancouver
BEGIN:STANDARD
DTSTART:20221106T020000
TZOFFSETFROM:-0700
TZOFFSETTO:-0800
RDATE:20231105T020000
TZNAME:PST
END:STANDARD
BEGIN:DAYLIGHT
DTSTART:20230312T020000
TZOFFSETFROM:-0800
TZOFFSETTO:-0700
RDATE:20240310T020000
TZNAME:PDT
END:DAYLIGHT
END:VTIMEZONE
BEGIN:VEVENT
UID:1
DESCRIPTION:Test RDATE
DTSTAMP;TZID=America/Vancouver:20230920T120000
DTSTART;TZID=America/Vancouver:20230920T120000
DTEND;TZID=America/Vancouver:20230920T140000
EXDATE;TZID=America/Vancouver:20231220T120000
RDATE;VALUE=PERIOD;TZID=America/Vancouver:20231213T120000/20231213T150000
RRULE:FREQ=MONTHLY;COUNT=9;INTERVAL=1;BYDAY=+3WE;BYMONTH=1,2,3,4,5,9,10,11,
 12;WKST=MO
SUMMARY:Test RDATE
END:VEVENT
END:VCALENDAR
")))) (lit "Ok(
    VCalendar {
        prodid: Text {
            params: {},
            text: ""collective/icalendar"",
        },
        version: Text {
            params: {},
            text: ""2.0"",
        },
        calscale: None,
        method: None,
        alarms: [],
        events: [
            VEvent {
                dtstamp: Naive(
                    2023-09-20T12:00:00,
                ),
                uid: Text {
                    params: {},
                    text: ""1"",
                },
                dtstart: DateTime(
                    Naive(
                        2023-09-20T12:00:00,
                    ),
                ),
                class: None,
                created: None,
                description: Some(
                    Text {
                        params: {},
                        text: ""Test RDATE"",
                    },
                ),
                geo: None,
                last_modified: None,
                location: None,
                organizer: None,
                priority: None,
                sequence: None,
                status: None,
                summary: Some(
                    Text {
                        params: {},
                        text: ""Test RDATE"",
                    },
                ),
                transp: None,
                url: None,
                recurid: None,
                rrule: Some(
                    Recur {
                        freq: Monthly,
                        until: None,
                        count: Some(
                            9,
                        ),
                        interval: 1,
                        by_second: [],
                        by_minute: [],
                        by_hour: [],
                        by_day: [
                            WeekdayNum {
                                weekday: Wenesday,
                                ord: Some(
                                    3,
                                ),
                            },
                        ],
                        by_monthday: [],
                        by_yearday: [],
                        by_weekno: [],
                        by_month: [
                            1,
                            2,
                            3,
                            4,
                            5,
                            9,
                            10,
                            11,
                            12,
                        ],
                        by_setpos: [],
                        wkst: Some(
                            Monday,
                        ),
                    },
                ),
                dtend: Some(
                    DateTime(
                        Naive(
                            2023-09-20T14:00:00,
                        ),
                    ),
                ),
                duration: None,
                attach: [],
                attendee: [],
                categories: [],
                comment: [],
                contact: [],
                exdate: [
                    DateTime(
                        Naive(
                            2023-12-20T12:00:00,
                        ),
                    ),
                ],
                rstatus: [],
                related_to: [],
                resources: [],
                rdate: [
                    Period(
                        [
                            StartEnd(
                                StartEnd {
                                    start: Naive(
                                        2023-12-13T12:00:00,
                                    ),
                                    end: Naive(
                                        2023-12-13T15:00:00,
                                    ),
                                },
                            ),
                        ],
                    ),
                ],
                alarms: [],
                x_prop: {},
                iana_prop: {},
            },
        ],
        freebusy: [],
        journals: [],
        todo: [],
        timezones: [
            VTimezone {
                tzid: Text {
                    params: {},
                    text: ""America/Vancouver"",
                },
                last_modified: None,
                tzurl: None,
                standard: [
                    Standard {
                        dtstart: DateTime(
                            Naive(
                                2022-11-06T02:00:00,
                            ),
                        ),
                        tzoffsetto: -08:00,
                        tzoffsetfrom: -07:00,
                        rrule: None,
                        comment: [],
                        rdate: [
                            Date(
                                [
                                    DateTime(
                                        Naive(
                                            2023-11-05T02:00:00,
                                        ),
                                    ),
                                ],
                            ),
                        ],
                        tzname: [
                            Text {
                                params: {},
                                text: ""PST"",
                            },
                        ],
                        x_prop: {},
                        iana_prop: {},
                    },
                ],
                daylight: [
                    Daylight {
                        dtstart: DateTime(
                            Naive(
                                2023-03-12T02:00:00,
                            ),
                        ),
                        tzoffsetto: -07:00,
                        tzoffsetfrom: -08:00,
                        rrule: None,
                        comment: [],
                        rdate: [
                            Date(
                                [
                                    DateTime(
                                        Naive(
                                            2024-03-10T02:00:00,
                                        ),
                                    ),
                                ],
                            ),
                        ],
                        tzname: [
                            Text {
                                params: {},
                                text: ""PDT"",
                            },
                        ],
                        x_prop: {},
                        iana_prop: {},
                    },
                ],
                x_prop: {},
                iana_prop: {},
            },
        ],
        x_prop: {
            ""X-WR-CALNAME"": ContentLine {
                params: {
                    ""VALUE"": ""TEXT"",
                },
                value: ""Test RDATE"",
            },
        },
        iana_prop: {},
    },
)
") = true.
Proof. vm_compute. reflexivity. Qed.
(** tests/calendars/pr_480_summary_with_colon.ics *)
Example file36 : is_err (vcalendar_of_str (crlf (lit "BEGIN:VCALENDAR
VERSION:2.0
PRODID:collective/icalendar
BEGIN:VEVENT
UID:1
SUMMARY:Example calendar with a ': ' in the summary
DTSTAMP;TZID=America/Vancouver:20230920T120000
DTSTART;TZID=America/Vancouver:20230920T120000
END:VEVENT
BEGIN:VEVENT
UID:2
SUMMARY:Another event with a ': ' in the summary
DTSTAMP;TZID=America/Vancouver:20230920T120000
DTSTART;TZID=America/Vancouver:20230920T120000
END:VEVENT
"))) = true.
Proof. vm_compute. reflexivity. Qed.
(** tests/calendars/small_bad_calendar.ics *)
Example file37 : is_err (vcalendar_of_str (crlf (lit "BEGIN:VCALENDAR
BEGIN:VEVENT
END:VEVENT
"))) = true.
Proof. vm_compute. reflexivity. Qed.
(** tests/calendars/time.ics *)
Example file38 : shows (debug_result (g_vcalendar f32d) (vcalendar_of_str (crlf (lit "BEGIN:VCALENDAR
VERSION:2.0
PRODID:collective/icalendar
X-SOMETIME;VALUE=TIME:172010
END:VCALENDAR
")))) (lit "Ok(
    VCalendar {
        prodid: Text {
            params: {},
            text: ""collective/icalendar"",
        },
        version: Text {
            params: {},
            text: ""2.0"",
        },
        calscale: None,
        method: None,
        alarms: [],
        events: [],
        freebusy: [],
        journals: [],
        todo: [],
        timezones: [],
        x_prop: {
            ""X-SOMETIME"": ContentLine {
                params: {
                    ""VALUE"": ""TIME"",
                },
                value: ""172010"",
            },
        },
        iana_prop: {},
    },
)
") = true.
Proof. vm_compute. reflexivity. Qed.
(** tests/calendars/timezone_rdate.ics *)
Example file39 : shows (debug_result (g_vcalendar f32d) (vcalendar_of_str (crlf (lit "BEGIN:VCALENDAR
VERSION:2.0
PRODID:collective/icalendar
BEGIN:VTIMEZONE
TZID:posix/Europe/Vaduz
BEGIN:STANDARD
TZNAME:CET
TZOFFSETFROM:+002946
TZOFFSETTO:+0100
DTSTART:19011213T211538
RDATE;VALUE=DATE-TIME:19011213T211538
END:STANDARD
BEGIN:DAYLIGHT
TZNAME:CEST
TZOFFSETFROM:+0100
TZOFFSETTO:+0200
DTSTART:19810329T020000
RRULE:FREQ=YEARLY;BYDAY=-1SU;BYMONTH=3
END:DAYLIGHT
BEGIN:DAYLIGHT
TZNAME:CEST
TZOFFSETFROM:+0100
TZOFFSETTO:+0200
DTSTART:19410505T010000
RDATE;VALUE=DATE-TIME:19410505T010000
RDATE;VALUE=DATE-TIME:19420504T010000
END:DAYLIGHT
BEGIN:STANDARD
TZNAME:CET
TZOFFSETFROM:+0200
TZOFFSETTO:+0100
DTSTART:19810927T030000
RRULE:FREQ=YEARLY;COUNT=15;BYDAY=-1SU;BYMONTH=9
END:STANDARD
BEGIN:STANDARD
TZNAME:CET
TZOFFSETFROM:+0200
TZOFFSETTO:+0100
DTSTART:19961027T030000
RRULE:FREQ=YEARLY;BYDAY=-1SU;BYMONTH=10
END:STANDARD
BEGIN:STANDARD
TZNAME:CET
TZOFFSETFROM:+0200
TZOFFSETTO:+0100
DTSTART:19411006T020000
RDATE;VALUE=DATE-TIME:19411006T020000
RDATE;VALUE=DATE-TIME:19421005T020000
END:STANDARD
END:VTIMEZONE
BEGIN:VEVENT
UID:123
DTSTART;TZID=posix/Europe/Vaduz:20120213T100000
DTSTAMP;TZID=posix/Europe/Vaduz:20120213T100000
SUMMARY:testevent
END:VEVENT
END:VCALENDAR
")))) (lit "Ok(
    VCalendar {
        prodid: Text {
            params: {},
            text: ""collective/icalendar"",
        },
        version: Text {
            params: {},
            text: ""2.0"",
        },
        calscale: None,
        method: None,
        alarms: [],
        events: [
            VEvent {
                dtstamp: Naive(
                    2012-02-13T10:00:00,
                ),
                uid: Text {
                    params: {},
                    text: ""123"",
                },
                dtstart: DateTime(
                    Naive(
                        2012-02-13T10:00:00,
                    ),
                ),
                class: None,
                created: None,
                description: None,
                geo: None,
                last_modified: None,
                location: None,
                organizer: None,
                priority: None,
                sequence: None,
                status: None,
                summary: Some(
                    Text {
                        params: {},
                        text: ""testevent"",
                    },
                ),
                transp: None,
                url: None,
                recurid: None,
                rrule: None,
                dtend: None,
                duration: None,
                attach: [],
                attendee: [],
                categories: [],
                comment: [],
                contact: [],
                exdate: [],
                rstatus: [],
                related_to: [],
                resources: [],
                rdate: [],
                alarms: [],
                x_prop: {},
                iana_prop: {},
            },
        ],
        freebusy: [],
        journals: [],
        todo: [],
        timezones: [
            VTimezone {
                tzid: Text {
                    params: {},
                    text: ""posix/Europe/Vaduz"",
                },
                last_modified: None,
                tzurl: None,
                standard: [
                    Standard {
                        dtstart: DateTime(
                            Naive(
                                1901-12-13T21:15:38,
                            ),
                        ),
                        tzoffsetto: +01:00,
                        tzoffsetfrom: +00:29,
                        rrule: None,
                        comment: [],
                        rdate: [
                            Date(
                                [
                                    DateTime(
                                        Naive(
                                            1901-12-13T21:15:38,
                                        ),
                                    ),
                                ],
                            ),
                        ],
                        tzname: [
                            Text {
                                params: {},
                                text: ""CET"",
                            },
                        ],
                        x_prop: {},
                        iana_prop: {},
                    },
                    Standard {
                        dtstart: DateTime(
                            Naive(
                                1981-09-27T03:00:00,
                            ),
                        ),
                        tzoffsetto: +01:00,
                        tzoffsetfrom: +02:00,
                        rrule: Some(
                            Recur {
                                freq: Yearly,
                                until: None,
                                count: Some(
                                    15,
                                ),
                                interval: 1,
                                by_second: [],
                                by_minute: [],
                                by_hour: [],
                                by_day: [
                                    WeekdayNum {
                                        weekday: Sunday,
                                        ord: Some(
                                            -1,
                                        ),
                                    },
                                ],
                                by_monthday: [],
                                by_yearday: [],
                                by_weekno: [],
                                by_month: [
                                    9,
                                ],
                                by_setpos: [],
                                wkst: None,
                            },
                        ),
                        comment: [],
                        rdate: [],
                        tzname: [
                            Text {
                                params: {},
                                text: ""CET"",
                            },
                        ],
                        x_prop: {},
                        iana_prop: {},
                    },
                    Standard {
                        dtstart: DateTime(
                            Naive(
                                1996-10-27T03:00:00,
                            ),
                        ),
                        tzoffsetto: +01:00,
                        tzoffsetfrom: +02:00,
                        rrule: Some(
                            Recur {
                                freq: Yearly,
                                until: None,
                                count: None,
                                interval: 1,
                                by_second: [],
                                by_minute: [],
                                by_hour: [],
                                by_day: [
                                    WeekdayNum {
                                        weekday: Sunday,
                                        ord: Some(
                                            -1,
                                        ),
                                    },
                                ],
                                by_monthday: [],
                                by_yearday: [],
                                by_weekno: [],
                                by_month: [
                                    10,
                                ],
                                by_setpos: [],
                                wkst: None,
                            },
                        ),
                        comment: [],
                        rdate: [],
                        tzname: [
                            Text {
                                params: {},
                                text: ""CET"",
                            },
                        ],
                        x_prop: {},
                        iana_prop: {},
                    },
                    Standard {
                        dtstart: DateTime(
                            Naive(
                                1941-10-06T02:00:00,
                            ),
                        ),
                        tzoffsetto: +01:00,
                        tzoffsetfrom: +02:00,
                        rrule: None,
                        comment: [],
                        rdate: [
                            Date(
                                [
                                    DateTime(
                                        Naive(
                                            1941-10-06T02:00:00,
                                        ),
                                    ),
                                ],
                            ),
                            Date(
                                [
                                    DateTime(
                                        Naive(
                                            1942-10-05T02:00:00,
                                        ),
                                    ),
                                ],
                            ),
                        ],
                        tzname: [
                            Text {
                                params: {},
                                text: ""CET"",
                            },
                        ],
                        x_prop: {},
                        iana_prop: {},
                    },
                ],
                daylight: [
                    Daylight {
                        dtstart: DateTime(
                            Naive(
                                1981-03-29T02:00:00,
                            ),
                        ),
                        tzoffsetto: +02:00,
                        tzoffsetfrom: +01:00,
                        rrule: Some(
                            Recur {
                                freq: Yearly,
                                until: None,
                                count: None,
                                interval: 1,
                                by_second: [],
                                by_minute: [],
                                by_hour: [],
                                by_day: [
                                    WeekdayNum {
                                        weekday: Sunday,
                                        ord: Some(
                                            -1,
                                        ),
                                    },
                                ],
                                by_monthday: [],
                                by_yearday: [],
                                by_weekno: [],
                                by_month: [
                                    3,
                                ],
                                by_setpos: [],
                                wkst: None,
                            },
                        ),
                        comment: [],
                        rdate: [],
                        tzname: [
                            Text {
                                params: {},
                                text: ""CEST"",
                            },
                        ],
                        x_prop: {},
                        iana_prop: {},
                    },
                    Daylight {
                        dtstart: DateTime(
                            Naive(
                                1941-05-05T01:00:00,
                            ),
                        ),
                        tzoffsetto: +02:00,
                        tzoffsetfrom: +01:00,
                        rrule: None,
                        comment: [],
                        rdate: [
                            Date(
                                [
                                    DateTime(
                                        Naive(
                                            1941-05-05T01:00:00,
                                        ),
                                    ),
                                ],
                            ),
                            Date(
                                [
                                    DateTime(
                                        Naive(
                                            1942-05-04T01:00:00,
                                        ),
                                    ),
                                ],
                            ),
                        ],
                        tzname: [
                            Text {
                                params: {},
                                text: ""CEST"",
                            },
                        ],
                        x_prop: {},
                        iana_prop: {},
                    },
                ],
                x_prop: {},
                iana_prop: {},
            },
        ],
        x_prop: {},
        iana_prop: {},
    },
)
") = true.
Proof. vm_compute. reflexivity. Qed.
(** tests/calendars/timezone_same_start.ics *)
Example file40 : shows (debug_result (g_vcalendar f32d) (vcalendar_of_str (crlf (lit "BEGIN:VCALENDAR
VERSION:2.0
PRODID:Microsoft Exchange Server 2010
METHOD:REQUEST
BEGIN:VTIMEZONE
TZID:Pacific Standard Time
BEGIN:STANDARD
DTSTART:16010101T020000
RRULE:FREQ=YEARLY;INTERVAL=1;BYDAY=1SU;BYMONTH=11
TZOFFSETFROM:-0700
TZOFFSETTO:-0800
END:STANDARD
BEGIN:DAYLIGHT
DTSTART:16010101T020000
RRULE:FREQ=YEARLY;INTERVAL=1;BYDAY=2SU;BYMONTH=3
TZOFFSETFROM:-0800
TZOFFSETTO:-0700
END:DAYLIGHT
END:VTIMEZONE
BEGIN:VEVENT
SUMMARY;LANGUAGE=en-US:Test 4
DTSTART;TZID=""Pacific Standard Time"":20170224T120000
DTEND;TZID=""Pacific Standard Time"":20170224T123000
DTSTAMP:20170224T180431Z
UID:040000008200E00074C5B7101A82E0080000000090E19664858ED20100000000000000
END:VEVENT
END:VCALENDAR
")))) (lit "Ok(
    VCalendar {
        prodid: Text {
            params: {},
            text: ""Microsoft Exchange Server 2010"",
        },
        version: Text {
            params: {},
            text: ""2.0"",
        },
        calscale: None,
        method: Some(
            Text {
                params: {},
                text: ""REQUEST"",
            },
        ),
        alarms: [],
        events: [
            VEvent {
                dtstamp: Local(
                    2017-02-24T19:04:31+01:00,
                ),
                uid: Text {
                    params: {},
                    text: ""040000008200E00074C5B7101A82E0080000000090E19664858ED20100000000000000"",
                },
                dtstart: DateTime(
                    Naive(
                        2017-02-24T12:00:00,
                    ),
                ),
                class: None,
                created: None,
                description: None,
                geo: None,
                last_modified: None,
                location: None,
                organizer: None,
                priority: None,
                sequence: None,
                status: None,
                summary: Some(
                    Text {
                        params: {
                            ""LANGUAGE"": ""en-US"",
                        },
                        text: ""Test 4"",
                    },
                ),
                transp: None,
                url: None,
                recurid: None,
                rrule: None,
                dtend: Some(
                    DateTime(
                        Naive(
                            2017-02-24T12:30:00,
                        ),
                    ),
                ),
                duration: None,
                attach: [],
                attendee: [],
                categories: [],
                comment: [],
                contact: [],
                exdate: [],
                rstatus: [],
                related_to: [],
                resources: [],
                rdate: [],
                alarms: [],
                x_prop: {},
                iana_prop: {},
            },
        ],
        freebusy: [],
        journals: [],
        todo: [],
        timezones: [
            VTimezone {
                tzid: Text {
                    params: {},
                    text: ""Pacific Standard Time"",
                },
                last_modified: None,
                tzurl: None,
                standard: [
                    Standard {
                        dtstart: DateTime(
                            Naive(
                                1601-01-01T02:00:00,
                            ),
                        ),
                        tzoffsetto: -08:00,
                        tzoffsetfrom: -07:00,
                        rrule: Some(
                            Recur {
                                freq: Yearly,
                                until: None,
                                count: None,
                                interval: 1,
                                by_second: [],
                                by_minute: [],
                                by_hour: [],
                                by_day: [
                                    WeekdayNum {
                                        weekday: Sunday,
                                        ord: Some(
                                            1,
                                        ),
                                    },
                                ],
                                by_monthday: [],
                                by_yearday: [],
                                by_weekno: [],
                                by_month: [
                                    11,
                                ],
                                by_setpos: [],
                                wkst: None,
                            },
                        ),
                        comment: [],
                        rdate: [],
                        tzname: [],
                        x_prop: {},
                        iana_prop: {},
                    },
                ],
                daylight: [
                    Daylight {
                        dtstart: DateTime(
                            Naive(
                                1601-01-01T02:00:00,
                            ),
                        ),
                        tzoffsetto: -07:00,
                        tzoffsetfrom: -08:00,
                        rrule: Some(
                            Recur {
                                freq: Yearly,
                                until: None,
                                count: None,
                                interval: 1,
                                by_second: [],
                                by_minute: [],
                                by_hour: [],
                                by_day: [
                                    WeekdayNum {
                                        weekday: Sunday,
                                        ord: Some(
                                            2,
                                        ),
                                    },
                                ],
                                by_monthday: [],
                                by_yearday: [],
                                by_weekno: [],
                                by_month: [
                                    3,
                                ],
                                by_setpos: [],
                                wkst: None,
                            },
                        ),
                        comment: [],
                        rdate: [],
                        tzname: [],
                        x_prop: {},
                        iana_prop: {},
                    },
                ],
                x_prop: {},
                iana_prop: {},
            },
        ],
        x_prop: {},
        iana_prop: {},
    },
)
") = true.
Proof. vm_compute. reflexivity. Qed.
(** tests/calendars/timezone_same_start_and_offset.ics *)
Example file41 : shows (debug_result (g_vcalendar f32d) (vcalendar_of_str (crlf (lit "BEGIN:VCALENDAR
VERSION:2.0
PRODID:Microsoft Exchange Server 2010
BEGIN:VTIMEZONE
TZID:Tokyo Standard Time
BEGIN:STANDARD
DTSTART:16010101T000000
TZOFFSETFROM:+0900
TZOFFSETTO:+0900
END:STANDARD
BEGIN:DAYLIGHT
DTSTART:16010101T000000
TZOFFSETFROM:+0900
TZOFFSETTO:+0900
END:DAYLIGHT
END:VTIMEZONE
BEGIN:VEVENT
DTSTAMP;TZID=""Tokyo Standard Time"":20170224T120000
DTSTART;TZID=""Tokyo Standard Time"":20170224T120000
DTEND;TZID=""Tokyo Standard Time"":20170224T123000
UID:blafoobar
SUMMARY:this is an event
END:VEVENT
END:VCALENDARD
")))) (lit "Ok(
    VCalendar {
        prodid: Text {
            params: {},
            text: ""Microsoft Exchange Server 2010"",
        },
        version: Text {
            params: {},
            text: ""2.0"",
        },
        calscale: None,
        method: None,
        alarms: [],
        events: [
            VEvent {
                dtstamp: Naive(
                    2017-02-24T12:00:00,
                ),
                uid: Text {
                    params: {},
                    text: ""blafoobar"",
                },
                dtstart: DateTime(
                    Naive(
                        2017-02-24T12:00:00,
                    ),
                ),
                class: None,
                created: None,
                description: None,
                geo: None,
                last_modified: None,
                location: None,
                organizer: None,
                priority: None,
                sequence: None,
                status: None,
                summary: Some(
                    Text {
                        params: {},
                        text: ""this is an event"",
                    },
                ),
                transp: None,
                url: None,
                recurid: None,
                rrule: None,
                dtend: Some(
                    DateTime(
                        Naive(
                            2017-02-24T12:30:00,
                        ),
                    ),
                ),
                duration: None,
                attach: [],
                attendee: [],
                categories: [],
                comment: [],
                contact: [],
                exdate: [],
                rstatus: [],
                related_to: [],
                resources: [],
                rdate: [],
                alarms: [],
                x_prop: {},
                iana_prop: {},
            },
        ],
        freebusy: [],
        journals: [],
        todo: [],
        timezones: [
            VTimezone {
                tzid: Text {
                    params: {},
                    text: ""Tokyo Standard Time"",
                },
                last_modified: None,
                tzurl: None,
                standard: [
                    Standard {
                        dtstart: DateTime(
                            Naive(
                                1601-01-01T00:00:00,
                            ),
                        ),
                        tzoffsetto: +09:00,
                        tzoffsetfrom: +09:00,
                        rrule: None,
                        comment: [],
                        rdate: [],
                        tzname: [],
                        x_prop: {},
                        iana_prop: {},
                    },
                ],
                daylight: [
                    Daylight {
                        dtstart: DateTime(
                            Naive(
                                1601-01-01T00:00:00,
                            ),
                        ),
                        tzoffsetto: +09:00,
                        tzoffsetfrom: +09:00,
                        rrule: None,
                        comment: [],
                        rdate: [],
                        tzname: [],
                        x_prop: {},
                        iana_prop: {},
                    },
                ],
                x_prop: {},
                iana_prop: {},
            },
        ],
        x_prop: {},
        iana_prop: {},
    },
)
") = true.
Proof. vm_compute. reflexivity. Qed.
(** tests/calendars/timezoned.ics *)
Example file42 : shows (debug_result (g_vcalendar f32d) (vcalendar_of_str (crlf (lit "BEGIN:VCALENDAR
PRODID:-//Plone.org//NONSGML plone.app.event//EN
VERSION:2.0
X-WR-CALNAME:test create calendar
X-WR-CALDESC:icalendar test
X-WR-RELCALID:12345
X-WR-TIMEZONE:Europe/Vienna
BEGIN:VTIMEZONE
TZID:Europe/Vienna
X-LIC-LOCATION:Europe/Vienna
BEGIN:DAYLIGHT
TZOFFSETFROM:+0100
TZOFFSETTO:+0200
TZNAME:CEST
DTSTART:19700329T020000
RRULE:FREQ=YEARLY;BYMONTH=3;BYDAY=-1SU
END:DAYLIGHT
BEGIN:STANDARD
TZOFFSETFROM:+0200
TZOFFSETTO:+0100
TZNAME:CET
DTSTART:19701025T030000
RRULE:FREQ=YEARLY;BYMONTH=10;BYDAY=-1SU
END:STANDARD
END:VTIMEZONE
BEGIN:VEVENT
DTSTART;TZID=Europe/Vienna:20120213T100000
DTEND;TZID=Europe/Vienna:20120217T180000
DTSTAMP:20101010T091010Z
CREATED:20101010T091010Z
UID:123456
SUMMARY:artsprint 2012
DESCRIPTION:sprinting at the artsprint
LOCATION:aka bild, wien
END:VEVENT
END:VCALENDAR
")))) (lit "Ok(
    VCalendar {
        prodid: Text {
            params: {},
            text: ""-//Plone.org//NONSGML plone.app.event//EN"",
        },
        version: Text {
            params: {},
            text: ""2.0"",
        },
        calscale: None,
        method: None,
        alarms: [],
        events: [
            VEvent {
                dtstamp: Local(
                    2010-10-10T11:10:10+02:00,
                ),
                uid: Text {
                    params: {},
                    text: ""123456"",
                },
                dtstart: DateTime(
                    Naive(
                        2012-02-13T10:00:00,
                    ),
                ),
                class: None,
                created: Some(
                    Local(
                        2010-10-10T11:10:10+02:00,
                    ),
                ),
                description: Some(
                    Text {
                        params: {},
                        text: ""sprinting at the artsprint"",
                    },
                ),
                geo: None,
                last_modified: None,
                location: Some(
                    Text {
                        params: {},
                        text: ""aka bild, wien"",
                    },
                ),
                organizer: None,
                priority: None,
                sequence: None,
                status: None,
                summary: Some(
                    Text {
                        params: {},
                        text: ""artsprint 2012"",
                    },
                ),
                transp: None,
                url: None,
                recurid: None,
                rrule: None,
                dtend: Some(
                    DateTime(
                        Naive(
                            2012-02-17T18:00:00,
                        ),
                    ),
                ),
                duration: None,
                attach: [],
                attendee: [],
                categories: [],
                comment: [],
                contact: [],
                exdate: [],
                rstatus: [],
                related_to: [],
                resources: [],
                rdate: [],
                alarms: [],
                x_prop: {},
                iana_prop: {},
            },
        ],
        freebusy: [],
        journals: [],
        todo: [],
        timezones: [
            VTimezone {
                tzid: Text {
                    params: {},
                    text: ""Europe/Vienna"",
                },
                last_modified: None,
                tzurl: None,
                standard: [
                    Standard {
                        dtstart: DateTime(
                            Naive(
                                1970-10-25T03:00:00,
                            ),
                        ),
                        tzoffsetto: +01:00,
                        tzoffsetfrom: +02:00,
                        rrule: Some(
                            Recur {
                                freq: Yearly,
                                until: None,
                                count: None,
                                interval: 1,
                                by_second: [],
                                by_minute: [],
                                by_hour: [],
                                by_day: [
                                    WeekdayNum {
                                        weekday: Sunday,
                                        ord: Some(
                                            -1,
                                        ),
                                    },
                                ],
                                by_monthday: [],
                                by_yearday: [],
                                by_weekno: [],
                                by_month: [
                                    10,
                                ],
                                by_setpos: [],
                                wkst: None,
                            },
                        ),
                        comment: [],
                        rdate: [],
                        tzname: [
                            Text {
                                params: {},
                                text: ""CET"",
                            },
                        ],
                        x_prop: {},
                        iana_prop: {},
                    },
                ],
                daylight: [
                    Daylight {
                        dtstart: DateTime(
                            Naive(
                                1970-03-29T02:00:00,
                            ),
                        ),
                        tzoffsetto: +02:00,
                        tzoffsetfrom: +01:00,
                        rrule: Some(
                            Recur {
                                freq: Yearly,
                                until: None,
                                count: None,
                                interval: 1,
                                by_second: [],
                                by_minute: [],
                                by_hour: [],
                                by_day: [
                                    WeekdayNum {
                                        weekday: Sunday,
                                        ord: Some(
                                            -1,
                                        ),
                                    },
                                ],
                                by_monthday: [],
                                by_yearday: [],
                                by_weekno: [],
                                by_month: [
                                    3,
                                ],
                                by_setpos: [],
                                wkst: None,
                            },
                        ),
                        comment: [],
                        rdate: [],
                        tzname: [
                            Text {
                                params: {},
                                text: ""CEST"",
                            },
                        ],
                        x_prop: {},
                        iana_prop: {},
                    },
                ],
                x_prop: {
                    ""X-LIC-LOCATION"": ContentLine {
                        params: {},
                        value: ""Europe/Vienna"",
                    },
                },
                iana_prop: {},
            },
        ],
        x_prop: {
            ""X-WR-CALDESC"": ContentLine {
                params: {},
                value: ""icalendar test"",
            },
            ""X-WR-CALNAME"": ContentLine {
                params: {},
                value: ""test create calendar"",
            },
            ""X-WR-RELCALID"": ContentLine {
                params: {},
                value: ""12345"",
            },
            ""X-WR-TIMEZONE"": ContentLine {
                params: {},
                value: ""Europe/Vienna"",
            },
        },
        iana_prop: {},
    },
)
") = true.
Proof. vm_compute. reflexivity. Qed.
(** tests/calendars/x_location.ics *)
Example file43 : shows (debug_result (g_vcalendar f32d) (vcalendar_of_str (crlf (lit "BEGIN:VCALENDAR
PRODID:-//Google Inc//Google Calendar 70.9054//EN
VERSION:2.0
CALSCALE:GREGORIAN
METHOD:PUBLISH
X-WR-CALNAME:ITC
X-WR-TIMEZONE:Europe/Zurich
X-WR-CALDESC:ITC Bookings
BEGIN:VTIMEZONE
TZID:Europe/Zurich
X-LIC-LOCATION:Europe/Zurich
BEGIN:DAYLIGHT
TZOFFSETFROM:+0100
TZOFFSETTO:+0200
TZNAME:CEST
DTSTART:19700329T020000
RRULE:FREQ=YEARLY;BYMONTH=3;BYDAY=-1SU
END:DAYLIGHT
BEGIN:STANDARD
TZOFFSETFROM:+0200
TZOFFSETTO:+0100
TZNAME:CET
DTSTART:19701025T030000
RRULE:FREQ=YEARLY;BYMONTH=10;BYDAY=-1SU
END:STANDARD
END:VTIMEZONE
BEGIN:VEVENT
DTSTART;TZID=Europe/Zurich:20161028T140000
DTEND;TZID=Europe/Zurich:20161028T143000
RRULE:FREQ=WEEKLY;BYDAY=MO,TU,WE,TH,FR
DTSTAMP:20161031T192828Z
UID:BFE33ADD-5553-48B5-B5A5-F9DA5CA4C393
CREATED:20161029T121229Z
DESCRIPTION:Some Description
LAST-MODIFIED:20161029T121229Z
LOCATION:Roadstar 16\n12764 Happyville\nDenmark
SEQUENCE:0
STATUS:CONFIRMED
SUMMARY:Daily Sync
TRANSP:OPAQUE
X-APPLE-STRUCTURED-LOCATION;VALUE=URI;X-ADDRESS=""R" ++ [246] ++ lit "adstar 16\n12764 Happyvi
 lle\nDenmark"";X-APPLE-MAPKIT-HANDLE=CAESARoSCWYTYFhHQBEGfw4hQCIBDQoHRGVubW
 FyaxJES0hhcHB5dmlsbGUqSGFwcHl2aWxsZTIHSGFwcHl2aWxsZToEMTI3NjRCDQpSb2Fkc3Rh
 cloCMTZiUm9hZHN0YXIgMTYBEU1vcmRvcgENCk1vcmRvcioSUm9hZHN0YXIgMTYyUm9hZHN0YX
 IgMTYxMjc2NCBIYXBweXZpbGxlMgdEZW5tYXJrOThA=;X-APPLE-RADIUS=49.913058665846
 98;X-APPLE-REFERENCEFRAME=1;X-TITLE=:geo:52.382762,7.528319
END:VEVENT
END:VCALENDAR
")))) (lit "Ok(
    VCalendar {
        prodid: Text {
            params: {},
            text: ""-//Google Inc//Google Calendar 70.9054//EN"",
        },
        version: Text {
            params: {},
            text: ""2.0"",
        },
        calscale: Some(
            Text {
                params: {},
                text: ""GREGORIAN"",
            },
        ),
        method: Some(
            Text {
                params: {},
                text: ""PUBLISH"",
            },
        ),
        alarms: [],
        events: [
            VEvent {
                dtstamp: Local(
                    2016-10-31T20:28:28+01:00,
                ),
                uid: Text {
                    params: {},
                    text: ""BFE33ADD-5553-48B5-B5A5-F9DA5CA4C393"",
                },
                dtstart: DateTime(
                    Naive(
                        2016-10-28T14:00:00,
                    ),
                ),
                class: None,
                created: Some(
                    Local(
                        2016-10-29T14:12:29+02:00,
                    ),
                ),
                description: Some(
                    Text {
                        params: {},
                        text: ""Some Description"",
                    },
                ),
                geo: None,
                last_modified: Some(
                    Local(
                        2016-10-29T14:12:29+02:00,
                    ),
                ),
                location: Some(
                    Text {
                        params: {},
                        text: ""Roadstar 16\\n12764 Happyville\\nDenmark"",
                    },
                ),
                organizer: None,
                priority: None,
                sequence: Some(
                    0,
                ),
                status: Some(
                    Confirmed,
                ),
                summary: Some(
                    Text {
                        params: {},
                        text: ""Daily Sync"",
                    },
                ),
                transp: Some(
                    Opaque,
                ),
                url: None,
                recurid: None,
                rrule: Some(
                    Recur {
                        freq: Weekly,
                        until: None,
                        count: None,
                        interval: 1,
                        by_second: [],
                        by_minute: [],
                        by_hour: [],
                        by_day: [
                            WeekdayNum {
                                weekday: Monday,
                                ord: None,
                            },
                            WeekdayNum {
                                weekday: Tuesday,
                                ord: None,
                            },
                            WeekdayNum {
                                weekday: Wenesday,
                                ord: None,
                            },
                            WeekdayNum {
                                weekday: Thurday,
                                ord: None,
                            },
                            WeekdayNum {
                                weekday: Friday,
                                ord: None,
                            },
                        ],
                        by_monthday: [],
                        by_yearday: [],
                        by_weekno: [],
                        by_month: [],
                        by_setpos: [],
                        wkst: None,
                    },
                ),
                dtend: Some(
                    DateTime(
                        Naive(
                            2016-10-28T14:30:00,
                        ),
                    ),
                ),
                duration: None,
                attach: [],
                attendee: [],
                categories: [],
                comment: [],
                contact: [],
                exdate: [],
                rstatus: [],
                related_to: [],
                resources: [],
                rdate: [],
                alarms: [],
                x_prop: {
                    ""X-APPLE-STRUCTURED-LOCATION"": ContentLine {
                        params: {
                            ""VALUE"": ""URI"",
                            ""X-ADDRESS"": ""R" ++ [246] ++ lit "adstar 16\\n12764 Happyville\\nDenmark"",
                            ""X-APPLE-MAPKIT-HANDLE"": ""CAESARoSCWYTYFhHQBEGfw4hQCIBDQoHRGVubWFyaxJES0hhcHB5dmlsbGUqSGFwcHl2aWxsZTIHSGFwcHl2aWxsZToEMTI3NjRCDQpSb2Fkc3RhcloCMTZiUm9hZHN0YXIgMTYBEU1vcmRvcgENCk1vcmRvcioSUm9hZHN0YXIgMTYyUm9hZHN0YXIgMTYxMjc2NCBIYXBweXZpbGxlMgdEZW5tYXJrOThA="",
                            ""X-APPLE-RADIUS"": ""49.91305866584698"",
                            ""X-APPLE-REFERENCEFRAME"": ""1"",
                            ""X-TITLE"": """",
                        },
                        value: ""geo:52.382762,7.528319"",
                    },
                },
                iana_prop: {},
            },
        ],
        freebusy: [],
        journals: [],
        todo: [],
        timezones: [
            VTimezone {
                tzid: Text {
                    params: {},
                    text: ""Europe/Zurich"",
                },
                last_modified: None,
                tzurl: None,
                standard: [
                    Standard {
                        dtstart: DateTime(
                            Naive(
                                1970-10-25T03:00:00,
                            ),
                        ),
                        tzoffsetto: +01:00,
                        tzoffsetfrom: +02:00,
                        rrule: Some(
                            Recur {
                                freq: Yearly,
                                until: None,
                                count: None,
                                interval: 1,
                                by_second: [],
                                by_minute: [],
                                by_hour: [],
                                by_day: [
                                    WeekdayNum {
                                        weekday: Sunday,
                                        ord: Some(
                                            -1,
                                        ),
                                    },
                                ],
                                by_monthday: [],
                                by_yearday: [],
                                by_weekno: [],
                                by_month: [
                                    10,
                                ],
                                by_setpos: [],
                                wkst: None,
                            },
                        ),
                        comment: [],
                        rdate: [],
                        tzname: [
                            Text {
                                params: {},
                                text: ""CET"",
                            },
                        ],
                        x_prop: {},
                        iana_prop: {},
                    },
                ],
                daylight: [
                    Daylight {
                        dtstart: DateTime(
                            Naive(
                                1970-03-29T02:00:00,
                            ),
                        ),
                        tzoffsetto: +02:00,
                        tzoffsetfrom: +01:00,
                        rrule: Some(
                            Recur {
                                freq: Yearly,
                                until: None,
                                count: None,
                                interval: 1,
                                by_second: [],
                                by_minute: [],
                                by_hour: [],
                                by_day: [
                                    WeekdayNum {
                                        weekday: Sunday,
                                        ord: Some(
                                            -1,
                                        ),
                                    },
                                ],
                                by_monthday: [],
                                by_yearday: [],
                                by_weekno: [],
                                by_month: [
                                    3,
                                ],
                                by_setpos: [],
                                wkst: None,
                            },
                        ),
                        comment: [],
                        rdate: [],
                        tzname: [
                            Text {
                                params: {},
                                text: ""CEST"",
                            },
                        ],
                        x_prop: {},
                        iana_prop: {},
                    },
                ],
                x_prop: {
                    ""X-LIC-LOCATION"": ContentLine {
                        params: {},
                        value: ""Europe/Zurich"",
                    },
                },
                iana_prop: {},
            },
        ],
        x_prop: {
            ""X-WR-CALDESC"": ContentLine {
                params: {},
                value: ""ITC Bookings"",
            },
            ""X-WR-CALNAME"": ContentLine {
                params: {},
                value: ""ITC"",
            },
            ""X-WR-TIMEZONE"": ContentLine {
                params: {},
                value: ""Europe/Zurich"",
            },
        },
        iana_prop: {},
    },
)
") = true.
Proof. vm_compute. reflexivity. Qed.
(** tests/events/1.ics *)
Example file44 : shows (debug_result (g_vevent f32d) (vevent_of_str (crlf (lit "BEGIN:VEVENT
CREATED:20170209T192358
DTSTAMP:20170209T192358
LAST-MODIFIED:20170209T192358
UID:5UILHLI7RI6K2IDRAQX7O
SUMMARY:Vers
CLASS:PUBLIC
STATUS:CONFIRMED
DTSTART;VALUE=DATE:20170209
DTEND;VALUE=DATE:20170210
END:VEVENT
")))) (lit "Ok(
    VEvent {
        dtstamp: Naive(
            2017-02-09T19:23:58,
        ),
        uid: Text {
            params: {},
            text: ""5UILHLI7RI6K2IDRAQX7O"",
        },
        dtstart: Date(
            2017-02-09,
        ),
        class: Some(
            Public,
        ),
        created: Some(
            Naive(
                2017-02-09T19:23:58,
            ),
        ),
        description: None,
        geo: None,
        last_modified: Some(
            Naive(
                2017-02-09T19:23:58,
            ),
        ),
        location: None,
        organizer: None,
        priority: None,
        sequence: None,
        status: Some(
            Confirmed,
        ),
        summary: Some(
            Text {
                params: {},
                text: ""Vers"",
            },
        ),
        transp: None,
        url: None,
        recurid: None,
        rrule: None,
        dtend: Some(
            Date(
                2017-02-10,
            ),
        ),
        duration: None,
        attach: [],
        attendee: [],
        categories: [],
        comment: [],
        contact: [],
        exdate: [],
        rstatus: [],
        related_to: [],
        resources: [],
        rdate: [],
        alarms: [],
        x_prop: {},
        iana_prop: {},
    },
)
") = true.
Proof. vm_compute. reflexivity. Qed.
(** tests/events/event_with_escaped_character1.ics *)
Example file45 : shows (debug_result (g_vevent f32d) (vevent_of_str (crlf (lit "BEGIN:VEVENT
DTSTAMP:20170209T192358
UID:5UILHLI7RI6K2IDRAQX7O
DTSTART;VALUE=DATE:20170209
ORGANIZER;CN=Society\, 2014:that
END:VEVENT
")))) (lit "Ok(
    VEvent {
        dtstamp: Naive(
            2017-02-09T19:23:58,
        ),
        uid: Text {
            params: {},
            text: ""5UILHLI7RI6K2IDRAQX7O"",
        },
        dtstart: Date(
            2017-02-09,
        ),
        class: None,
        created: None,
        description: None,
        geo: None,
        last_modified: None,
        location: None,
        organizer: Some(
            Uri {
                params: {
                    ""CN"": ""Society\\, 2014"",
                },
                uri: ""that"",
            },
        ),
        priority: None,
        sequence: None,
        status: None,
        summary: None,
        transp: None,
        url: None,
        recurid: None,
        rrule: None,
        dtend: None,
        duration: None,
        attach: [],
        attendee: [],
        categories: [],
        comment: [],
        contact: [],
        exdate: [],
        rstatus: [],
        related_to: [],
        resources: [],
        rdate: [],
        alarms: [],
        x_prop: {},
        iana_prop: {},
    },
)
") = true.
Proof. vm_compute. reflexivity. Qed.
(** tests/events/event_with_escaped_character2.ics *)
Example file46 : shows (debug_result (g_vevent f32d) (vevent_of_str (crlf (lit "BEGIN:VEVENT
DTSTAMP:20170209T192358
UID:5UILHLI7RI6K2IDRAQX7O
DTSTART;VALUE=DATE:20170209
ORGANIZER;CN=Society\\ 2014:that
END:VEVENT
")))) (lit "Ok(
    VEvent {
        dtstamp: Naive(
            2017-02-09T19:23:58,
        ),
        uid: Text {
            params: {},
            text: ""5UILHLI7RI6K2IDRAQX7O"",
        },
        dtstart: Date(
            2017-02-09,
        ),
        class: None,
        created: None,
        description: None,
        geo: None,
        last_modified: None,
        location: None,
        organizer: Some(
            Uri {
                params: {
                    ""CN"": ""Society\\\\ 2014"",
                },
                uri: ""that"",
            },
        ),
        priority: None,
        sequence: None,
        status: None,
        summary: None,
        transp: None,
        url: None,
        recurid: None,
        rrule: None,
        dtend: None,
        duration: None,
        attach: [],
        attendee: [],
        categories: [],
        comment: [],
        contact: [],
        exdate: [],
        rstatus: [],
        related_to: [],
        resources: [],
        rdate: [],
        alarms: [],
        x_prop: {},
        iana_prop: {},
    },
)
") = true.
Proof. vm_compute. reflexivity. Qed.
(** tests/events/event_with_escaped_character4.ics *)
Example file47 : shows (debug_result (g_vevent f32d) (vevent_of_str (crlf (lit "BEGIN:VEVENT
DTSTAMP:20170209T192358
UID:5UILHLI7RI6K2IDRAQX7O
DTSTART;VALUE=DATE:20170209
ORGANIZER;CN=Society\: 2014:that
END:VEVENT
")))) (lit "Ok(
    VEvent {
        dtstamp: Naive(
            2017-02-09T19:23:58,
        ),
        uid: Text {
            params: {},
            text: ""5UILHLI7RI6K2IDRAQX7O"",
        },
        dtstart: Date(
            2017-02-09,
        ),
        class: None,
        created: None,
        description: None,
        geo: None,
        last_modified: None,
        location: None,
        organizer: Some(
            Uri {
                params: {
                    ""CN"": ""Society\\"",
                },
                uri: "" 2014:that"",
            },
        ),
        priority: None,
        sequence: None,
        status: None,
        summary: None,
        transp: None,
        url: None,
        recurid: None,
        rrule: None,
        dtend: None,
        duration: None,
        attach: [],
        attendee: [],
        categories: [],
        comment: [],
        contact: [],
        exdate: [],
        rstatus: [],
        related_to: [],
        resources: [],
        rdate: [],
        alarms: [],
        x_prop: {},
        iana_prop: {},
    },
)
") = true.
Proof. vm_compute. reflexivity. Qed.
(** tests/events/event_with_recurrence.ics *)
Example file48 : shows (debug_result (g_vevent f32d) (vevent_of_str (crlf (lit "BEGIN:VEVENT
DTSTAMP:20170209T192358
UID:5UILHLI7RI6K2IDRAQX7O
DTSTART:19960401T010000
DTEND:19960401T020000
RRULE:FREQ=DAILY;COUNT=100
EXDATE:19960402T010000Z,19960403T010000Z,19960404T010000Z
SUMMARY:A recurring event with exdates
END:VEVENT
")))) (lit "Ok(
    VEvent {
        dtstamp: Naive(
            2017-02-09T19:23:58,
        ),
        uid: Text {
            params: {},
            text: ""5UILHLI7RI6K2IDRAQX7O"",
        },
        dtstart: DateTime(
            Naive(
                1996-04-01T01:00:00,
            ),
        ),
        class: None,
        created: None,
        description: None,
        geo: None,
        last_modified: None,
        location: None,
        organizer: None,
        priority: None,
        sequence: None,
        status: None,
        summary: Some(
            Text {
                params: {},
                text: ""A recurring event with exdates"",
            },
        ),
        transp: None,
        url: None,
        recurid: None,
        rrule: Some(
            Recur {
                freq: Daily,
                until: None,
                count: Some(
                    100,
                ),
                interval: 1,
                by_second: [],
                by_minute: [],
                by_hour: [],
                by_day: [],
                by_monthday: [],
                by_yearday: [],
                by_weekno: [],
                by_month: [],
                by_setpos: [],
                wkst: None,
            },
        ),
        dtend: Some(
            DateTime(
                Naive(
                    1996-04-01T02:00:00,
                ),
            ),
        ),
        duration: None,
        attach: [],
        attendee: [],
        categories: [],
        comment: [],
        contact: [],
        exdate: [
            DateTime(
                Local(
                    1996-04-02T03:00:00+02:00,
                ),
            ),
            DateTime(
                Local(
                    1996-04-03T03:00:00+02:00,
                ),
            ),
            DateTime(
                Local(
                    1996-04-04T03:00:00+02:00,
                ),
            ),
        ],
        rstatus: [],
        related_to: [],
        resources: [],
        rdate: [],
        alarms: [],
        x_prop: {},
        iana_prop: {},
    },
)
") = true.
Proof. vm_compute. reflexivity. Qed.
(** tests/events/event_with_recurrence_exdates_on_different_lines.ics *)
Example file49 : shows (debug_result (g_vevent f32d) (vevent_of_str (crlf (lit "BEGIN:VEVENT
UID:5UILHLI7RI6K2IDRAQX7O
DTSTART;TZID=Europe/Vienna:20120327T100000
DTEND;TZID=Europe/Vienna:20120327T180000
RRULE:FREQ=WEEKLY;UNTIL=20120703T080000Z;BYDAY=TU
EXDATE;TZID=Europe/Vienna:20120529T100000
EXDATE;TZID=Europe/Vienna:20120403T100000
EXDATE;TZID=Europe/Vienna:20120410T100000
EXDATE;TZID=Europe/Vienna:20120501T100000
EXDATE;TZID=Europe/Vienna:20120417T100000
DTSTAMP:20130716T120638Z
SUMMARY:A Recurring event with multiple exdates, one per line.
END:VEVENT
")))) (lit "Ok(
    VEvent {
        dtstamp: Local(
            2013-07-16T14:06:38+02:00,
        ),
        uid: Text {
            params: {},
            text: ""5UILHLI7RI6K2IDRAQX7O"",
        },
        dtstart: DateTime(
            Naive(
                2012-03-27T10:00:00,
            ),
        ),
        class: None,
        created: None,
        description: None,
        geo: None,
        last_modified: None,
        location: None,
        organizer: None,
        priority: None,
        sequence: None,
        status: None,
        summary: Some(
            Text {
                params: {},
                text: ""A Recurring event with multiple exdates, one per line."",
            },
        ),
        transp: None,
        url: None,
        recurid: None,
        rrule: Some(
            Recur {
                freq: Weekly,
                until: Some(
                    DateTime(
                        Local(
                            2012-07-03T10:00:00+02:00,
                        ),
                    ),
                ),
                count: None,
                interval: 1,
                by_second: [],
                by_minute: [],
                by_hour: [],
                by_day: [
                    WeekdayNum {
                        weekday: Tuesday,
                        ord: None,
                    },
                ],
                by_monthday: [],
                by_yearday: [],
                by_weekno: [],
                by_month: [],
                by_setpos: [],
                wkst: None,
            },
        ),
        dtend: Some(
            DateTime(
                Naive(
                    2012-03-27T18:00:00,
                ),
            ),
        ),
        duration: None,
        attach: [],
        attendee: [],
        categories: [],
        comment: [],
        contact: [],
        exdate: [
            DateTime(
                Naive(
                    2012-05-29T10:00:00,
                ),
            ),
            DateTime(
                Naive(
                    2012-04-03T10:00:00,
                ),
            ),
            DateTime(
                Naive(
                    2012-04-10T10:00:00,
                ),
            ),
            DateTime(
                Naive(
                    2012-05-01T10:00:00,
                ),
            ),
            DateTime(
                Naive(
                    2012-04-17T10:00:00,
                ),
            ),
        ],
        rstatus: [],
        related_to: [],
        resources: [],
        rdate: [],
        alarms: [],
        x_prop: {},
        iana_prop: {},
    },
)
") = true.
Proof. vm_compute. reflexivity. Qed.
(** tests/events/event_with_rsvp.ics *)
Example file50 : shows (debug_result (g_vevent f32d) (vevent_of_str (crlf (lit "BEGIN:VEVENT
DTSTAMP:20170209T192358
UID:5UILHLI7RI6K2IDRAQX7O
DTSTART;VALUE=DATE:20170209
ATTENDEE;RSVP=TRUE:mailto:someone@example.com
END:VEVENT
")))) (lit "Ok(
    VEvent {
        dtstamp: Naive(
            2017-02-09T19:23:58,
        ),
        uid: Text {
            params: {},
            text: ""5UILHLI7RI6K2IDRAQX7O"",
        },
        dtstart: Date(
            2017-02-09,
        ),
        class: None,
        created: None,
        description: None,
        geo: None,
        last_modified: None,
        location: None,
        organizer: None,
        priority: None,
        sequence: None,
        status: None,
        summary: None,
        transp: None,
        url: None,
        recurid: None,
        rrule: None,
        dtend: None,
        duration: None,
        attach: [],
        attendee: [
            Uri {
                params: {
                    ""RSVP"": ""TRUE"",
                },
                uri: ""mailto:someone@example.com"",
            },
        ],
        categories: [],
        comment: [],
        contact: [],
        exdate: [],
        rstatus: [],
        related_to: [],
        resources: [],
        rdate: [],
        alarms: [],
        x_prop: {},
        iana_prop: {},
    },
)
") = true.
Proof. vm_compute. reflexivity. Qed.
(** tests/events/event_with_unicode_fields.ics *)
Example file51 : shows (debug_result (g_vevent f32d) (vevent_of_str (crlf (lit "BEGIN:VEVENT
DTSTAMP:20170209T192358
DTSTART:20101010T100000Z
DTEND:20101010T120000Z
CREATED:20101010T100000Z
UID:123456
SUMMARY:Non-ASCII Test: " ++ [196] ++ [214] ++ [220] ++ lit " " ++ [228] ++ [246] ++ [252] ++ lit " " ++ [8364] ++ lit "
DESCRIPTION:icalendar should be able to handle non-ascii: " ++ [8364] ++ [228] ++ [252] ++ [246] ++ [196] ++ [220] ++ [214] ++ lit ".
LOCATION:Tribstr" ++ [252] ++ lit "l
END:VEVENT
")))) (lit "Ok(
    VEvent {
        dtstamp: Naive(
            2017-02-09T19:23:58,
        ),
        uid: Text {
            params: {},
            text: ""123456"",
        },
        dtstart: DateTime(
            Local(
                2010-10-10T12:00:00+02:00,
            ),
        ),
        class: None,
        created: Some(
            Local(
                2010-10-10T12:00:00+02:00,
            ),
        ),
        description: Some(
            Text {
                params: {},
                text: ""icalendar should be able to handle non-ascii: " ++ [8364] ++ [228] ++ [252] ++ [246] ++ [196] ++ [220] ++ [214] ++ lit "."",
            },
        ),
        geo: None,
        last_modified: None,
        location: Some(
            Text {
                params: {},
                text: ""Tribstr" ++ [252] ++ lit "l"",
            },
        ),
        organizer: None,
        priority: None,
        sequence: None,
        status: None,
        summary: Some(
            Text {
                params: {},
                text: ""Non-ASCII Test: " ++ [196] ++ [214] ++ [220] ++ lit " " ++ [228] ++ [246] ++ [252] ++ lit " " ++ [8364] ++ lit """,
            },
        ),
        transp: None,
        url: None,
        recurid: None,
        rrule: None,
        dtend: Some(
            DateTime(
                Local(
                    2010-10-10T14:00:00+02:00,
                ),
            ),
        ),
        duration: None,
        attach: [],
        attendee: [],
        categories: [],
        comment: [],
        contact: [],
        exdate: [],
        rstatus: [],
        related_to: [],
        resources: [],
        rdate: [],
        alarms: [],
        x_prop: {},
        iana_prop: {},
    },
)
") = true.
Proof. vm_compute. reflexivity. Qed.
(** tests/events/event_with_unicode_organizer.ics *)
Example file52 : shows (debug_result (g_vevent f32d) (vevent_of_str (crlf (lit "BEGIN:VEVENT
DTSTAMP:20170209T192358
UID:5UILHLI7RI6K2IDRAQX7O
DTSTART;VALUE=DATE:20170209
ORGANIZER;CN=""" ++ [1044] ++ [1078] ++ [1086] ++ [1085] ++ lit " " ++ [1044] ++ [1086] ++ [1091] ++ lit """:mailto:john.doe@example.org
END:VEVENT
")))) (lit "Ok(
    VEvent {
        dtstamp: Naive(
            2017-02-09T19:23:58,
        ),
        uid: Text {
            params: {},
            text: ""5UILHLI7RI6K2IDRAQX7O"",
        },
        dtstart: Date(
            2017-02-09,
        ),
        class: None,
        created: None,
        description: None,
        geo: None,
        last_modified: None,
        location: None,
        organizer: Some(
            Uri {
                params: {
                    ""CN"": """ ++ [1044] ++ [1078] ++ [1086] ++ [1085] ++ lit " " ++ [1044] ++ [1086] ++ [1091] ++ lit """,
                },
                uri: ""mailto:john.doe@example.org"",
            },
        ),
        priority: None,
        sequence: None,
        status: None,
        summary: None,
        transp: None,
        url: None,
        recurid: None,
        rrule: None,
        dtend: None,
        duration: None,
        attach: [],
        attendee: [],
        categories: [],
        comment: [],
        contact: [],
        exdate: [],
        rstatus: [],
        related_to: [],
        resources: [],
        rdate: [],
        alarms: [],
        x_prop: {},
        iana_prop: {},
    },
)
") = true.
Proof. vm_compute. reflexivity. Qed.
(** tests/events/issue_100_transformed_doctests_into_unittests.ics *)
Example file53 : is_err (vevent_of_str (lit "BEGIN:VEVENT" ++ [13] ++ [13] ++ lit "
DTSTAMP:20170209T192358" ++ [13] ++ lit "
UID:5UILHLI7RI6K2IDRAQX7O" ++ [13] ++ lit "
DTSTART;VALUE=DATE:20170209" ++ [13] ++ lit "
SUMMARY;LANGUAGE=ru:te" ++ [13] ++ [13] ++ lit "
END:VEVENT" ++ [13] ++ [13] ++ lit "
")) = true.
Proof. vm_compute. reflexivity. Qed.
(** tests/events/issue_101_icalendar_chokes_on_umlauts_in_organizer.ics *)
Example file54 : shows (debug_result (g_vevent f32d) (vevent_of_str (crlf (lit "BEGIN:VEVENT
SUMMARY:wichtiger termin 1
DTSTART:20130416T100000Z
DTEND:20130416T110000Z
DTSTAMP:20130416T092616Z
UID:20130416112341.10064jz0k4j7uem8@acmenet.de
CLASS:PUBLIC
CREATED:20130416T092341Z
LAST-MODIFIED:20130416T092341Z
LOCATION:im b" ++ [252] ++ lit "ro
ORGANIZER;CN=""acme, " ++ [228] ++ lit "dmin"":mailto:adm-acme@mydomain.de
STATUS:CONFIRMED
TRANSP:OPAQUE
END:VEVENT
")))) (lit "Ok(
    VEvent {
        dtstamp: Local(
            2013-04-16T11:26:16+02:00,
        ),
        uid: Text {
            params: {},
            text: ""20130416112341.10064jz0k4j7uem8@acmenet.de"",
        },
        dtstart: DateTime(
            Local(
                2013-04-16T12:00:00+02:00,
            ),
        ),
        class: Some(
            Public,
        ),
        created: Some(
            Local(
                2013-04-16T11:23:41+02:00,
            ),
        ),
        description: None,
        geo: None,
        last_modified: Some(
            Local(
                2013-04-16T11:23:41+02:00,
            ),
        ),
        location: Some(
            Text {
                params: {},
                text: ""im b" ++ [252] ++ lit "ro"",
            },
        ),
        organizer: Some(
            Uri {
                params: {
                    ""CN"": ""acme, " ++ [228] ++ lit "dmin"",
                },
                uri: ""mailto:adm-acme@mydomain.de"",
            },
        ),
        priority: None,
        sequence: None,
        status: Some(
            Confirmed,
        ),
        summary: Some(
            Text {
                params: {},
                text: ""wichtiger termin 1"",
            },
        ),
        transp: Some(
            Opaque,
        ),
        url: None,
        recurid: None,
        rrule: None,
        dtend: Some(
            DateTime(
                Local(
                    2013-04-16T13:00:00+02:00,
                ),
            ),
        ),
        duration: None,
        attach: [],
        attendee: [],
        categories: [],
        comment: [],
        contact: [],
        exdate: [],
        rstatus: [],
        related_to: [],
        resources: [],
        rdate: [],
        alarms: [],
        x_prop: {},
        iana_prop: {},
    },
)
") = true.
Proof. vm_compute. reflexivity. Qed.
(** tests/events/issue_104_mark_events_broken.ics *)
Example file55 : is_err (vevent_of_str (crlf (lit "BEGIN:VEVENT
DTSTART:20140401T000000Z
DTEND:20140401T010000Z
DTSTAMP:20140401T000000Z
UID:5UILHLI7RI6K2IDRAQX7O
SUMMARY:Broken Eevnt
CLASS:PUBLIC
STATUS:CONFIRMED
TRANSP:OPAQUE
X
END:VEVENT
"))) = true.
Proof. vm_compute. reflexivity. Qed.
(** tests/events/issue_112_missing_tzinfo_on_exdate.ics *)
Example file56 : shows (debug_result (g_vevent f32d) (vevent_of_str (crlf (lit "BEGIN:VEVENT
DTSTART;TZID=America/New_York:20130907T120000
DTEND;TZID=America/New_York:20130907T170000
RRULE:FREQ=WEEKLY;BYDAY=FR,SA;UNTIL=20131025T035959Z
EXDATE;TZID=America/New_York:20131012T120000
EXDATE;TZID=America/New_York:20131011T120000
DTSTAMP:20131021T025552Z
UID:ak30b02u7858q1oo6ji9dm4mgg@google.com
CREATED:20130903T181453Z
DESCRIPTION:The Fieldhouse and Hard Rock Cafe are working with PhillyRising
  to provide live entertainment on Friday and Saturday afternoons throughout
  the Summer.
LAST-MODIFIED:20131015T210927Z
LOCATION:12th and Market Streets (weather permitting)
SEQUENCE:0
STATUS:CONFIRMED
SUMMARY:Market East Live!
TRANSP:OPAQUE
END:VEVENT
")))) (lit "Ok(
    VEvent {
        dtstamp: Local(
            2013-10-21T04:55:52+02:00,
        ),
        uid: Text {
            params: {},
            text: ""ak30b02u7858q1oo6ji9dm4mgg@google.com"",
        },
        dtstart: DateTime(
            Naive(
                2013-09-07T12:00:00,
            ),
        ),
        class: None,
        created: Some(
            Local(
                2013-09-03T20:14:53+02:00,
            ),
        ),
        description: Some(
            Text {
                params: {},
                text: ""The Fieldhouse and Hard Rock Cafe are working with PhillyRising to provide live entertainment on Friday and Saturday afternoons throughout the Summer."",
            },
        ),
        geo: None,
        last_modified: Some(
            Local(
                2013-10-15T23:09:27+02:00,
            ),
        ),
        location: Some(
            Text {
                params: {},
                text: ""12th and Market Streets (weather permitting)"",
            },
        ),
        organizer: None,
        priority: None,
        sequence: Some(
            0,
        ),
        status: Some(
            Confirmed,
        ),
        summary: Some(
            Text {
                params: {},
                text: ""Market East Live!"",
            },
        ),
        transp: Some(
            Opaque,
        ),
        url: None,
        recurid: None,
        rrule: Some(
            Recur {
                freq: Weekly,
                until: Some(
                    DateTime(
                        Local(
                            2013-10-25T05:59:59+02:00,
                        ),
                    ),
                ),
                count: None,
                interval: 1,
                by_second: [],
                by_minute: [],
                by_hour: [],
                by_day: [
                    WeekdayNum {
                        weekday: Friday,
                        ord: None,
                    },
                    WeekdayNum {
                        weekday: Saturday,
                        ord: None,
                    },
                ],
                by_monthday: [],
                by_yearday: [],
                by_weekno: [],
                by_month: [],
                by_setpos: [],
                wkst: None,
            },
        ),
        dtend: Some(
            DateTime(
                Naive(
                    2013-09-07T17:00:00,
                ),
            ),
        ),
        duration: None,
        attach: [],
        attendee: [],
        categories: [],
        comment: [],
        contact: [],
        exdate: [
            DateTime(
                Naive(
                    2013-10-12T12:00:00,
                ),
            ),
            DateTime(
                Naive(
                    2013-10-11T12:00:00,
                ),
            ),
        ],
        rstatus: [],
        related_to: [],
        resources: [],
        rdate: [],
        alarms: [],
        x_prop: {},
        iana_prop: {},
    },
)
") = true.
Proof. vm_compute. reflexivity. Qed.
(** tests/events/issue_156_RDATE_with_PERIOD.ics *)
Example file57 : shows (debug_result (g_vevent f32d) (vevent_of_str (crlf (lit "BEGIN:VEVENT
DTSTAMP:20170209T192358
SUMMARY:RDATE period
DTSTART:19961230T020000Z
DTEND:19961230T060000Z
UID:rdate_period
RDATE;VALUE=PERIOD:19970101T180000Z/19970102T070000Z
END:VEVENT
")))) (lit "Ok(
    VEvent {
        dtstamp: Naive(
            2017-02-09T19:23:58,
        ),
        uid: Text {
            params: {},
            text: ""rdate_period"",
        },
        dtstart: DateTime(
            Local(
                1996-12-30T03:00:00+01:00,
            ),
        ),
        class: None,
        created: None,
        description: None,
        geo: None,
        last_modified: None,
        location: None,
        organizer: None,
        priority: None,
        sequence: None,
        status: None,
        summary: Some(
            Text {
                params: {},
                text: ""RDATE period"",
            },
        ),
        transp: None,
        url: None,
        recurid: None,
        rrule: None,
        dtend: Some(
            DateTime(
                Local(
                    1996-12-30T07:00:00+01:00,
                ),
            ),
        ),
        duration: None,
        attach: [],
        attendee: [],
        categories: [],
        comment: [],
        contact: [],
        exdate: [],
        rstatus: [],
        related_to: [],
        resources: [],
        rdate: [
            Period(
                [
                    StartEnd(
                        StartEnd {
                            start: Local(
                                1997-01-01T19:00:00+01:00,
                            ),
                            end: Local(
                                1997-01-02T08:00:00+01:00,
                            ),
                        },
                    ),
                ],
            ),
        ],
        alarms: [],
        x_prop: {},
        iana_prop: {},
    },
)
") = true.
Proof. vm_compute. reflexivity. Qed.
(** tests/events/issue_156_RDATE_with_PERIOD_list.ics *)
Example file58 : shows (debug_result (g_vevent f32d) (vevent_of_str (crlf (lit "BEGIN:VEVENT
DTSTAMP:20170209T192358
SUMMARY:RDATE period
DTSTART:19961230T020000Z
DTEND:19961230T060000Z
UID:rdate_period
RDATE;VALUE=PERIOD:19970101T180000Z/19970102T070000Z,19970109T180000Z/PT5H
 30M
END:VEVENT
")))) (lit "Ok(
    VEvent {
        dtstamp: Naive(
            2017-02-09T19:23:58,
        ),
        uid: Text {
            params: {},
            text: ""rdate_period"",
        },
        dtstart: DateTime(
            Local(
                1996-12-30T03:00:00+01:00,
            ),
        ),
        class: None,
        created: None,
        description: None,
        geo: None,
        last_modified: None,
        location: None,
        organizer: None,
        priority: None,
        sequence: None,
        status: None,
        summary: Some(
            Text {
                params: {},
                text: ""RDATE period"",
            },
        ),
        transp: None,
        url: None,
        recurid: None,
        rrule: None,
        dtend: Some(
            DateTime(
                Local(
                    1996-12-30T07:00:00+01:00,
                ),
            ),
        ),
        duration: None,
        attach: [],
        attendee: [],
        categories: [],
        comment: [],
        contact: [],
        exdate: [],
        rstatus: [],
        related_to: [],
        resources: [],
        rdate: [
            Period(
                [
                    StartEnd(
                        StartEnd {
                            start: Local(
                                1997-01-01T19:00:00+01:00,
                            ),
                            end: Local(
                                1997-01-02T08:00:00+01:00,
                            ),
                        },
                    ),
                    StartDur(
                        StartDur {
                            start: Local(
                                1997-01-09T19:00:00+01:00,
                            ),
                            duration: TimeDelta {
                                secs: 19800,
                                nanos: 0,
                            },
                        },
                    ),
                ],
            ),
        ],
        alarms: [],
        x_prop: {},
        iana_prop: {},
    },
)
") = true.
Proof. vm_compute. reflexivity. Qed.
(** tests/events/issue_157_removes_trailing_semicolon.ics *)
Example file59 : shows (debug_result (g_vevent f32d) (vevent_of_str (crlf (lit "BEGIN:VEVENT
DTSTAMP:20170209T192358
UID:5UILHLI7RI6K2IDRAQX7O
DTSTART:20150325T101010
RRULE:FREQ=YEARLY;BYMONTH=11;BYDAY=1SU;
END:VEVENT
")))) (lit "Ok(
    VEvent {
        dtstamp: Naive(
            2017-02-09T19:23:58,
        ),
        uid: Text {
            params: {},
            text: ""5UILHLI7RI6K2IDRAQX7O"",
        },
        dtstart: DateTime(
            Naive(
                2015-03-25T10:10:10,
            ),
        ),
        class: None,
        created: None,
        description: None,
        geo: None,
        last_modified: None,
        location: None,
        organizer: None,
        priority: None,
        sequence: None,
        status: None,
        summary: None,
        transp: None,
        url: None,
        recurid: None,
        rrule: Some(
            Recur {
                freq: Yearly,
                until: None,
                count: None,
                interval: 1,
                by_second: [],
                by_minute: [],
                by_hour: [],
                by_day: [
                    WeekdayNum {
                        weekday: Sunday,
                        ord: Some(
                            1,
                        ),
                    },
                ],
                by_monthday: [],
                by_yearday: [],
                by_weekno: [],
                by_month: [
                    11,
                ],
                by_setpos: [],
                wkst: None,
            },
        ),
        dtend: None,
        duration: None,
        attach: [],
        attendee: [],
        categories: [],
        comment: [],
        contact: [],
        exdate: [],
        rstatus: [],
        related_to: [],
        resources: [],
        rdate: [],
        alarms: [],
        x_prop: {},
        iana_prop: {},
    },
)
") = true.
Proof. vm_compute. reflexivity. Qed.
(** tests/events/issue_184_broken_representation_of_period.ics *)
Example file60 : shows (debug_result (g_vevent f32d) (vevent_of_str (crlf (lit "BEGIN:VEVENT
DTSTART:20150219T133000
DTSTAMP:20150219T133000
UID:1234567
RDATE;VALUE=PERIOD:20150219T133000/PT10H
END:VEVENT
")))) (lit "Ok(
    VEvent {
        dtstamp: Naive(
            2015-02-19T13:30:00,
        ),
        uid: Text {
            params: {},
            text: ""1234567"",
        },
        dtstart: DateTime(
            Naive(
                2015-02-19T13:30:00,
            ),
        ),
        class: None,
        created: None,
        description: None,
        geo: None,
        last_modified: None,
        location: None,
        organizer: None,
        priority: None,
        sequence: None,
        status: None,
        summary: None,
        transp: None,
        url: None,
        recurid: None,
        rrule: None,
        dtend: None,
        duration: None,
        attach: [],
        attendee: [],
        categories: [],
        comment: [],
        contact: [],
        exdate: [],
        rstatus: [],
        related_to: [],
        resources: [],
        rdate: [
            Period(
                [
                    StartDur(
                        StartDur {
                            start: Naive(
                                2015-02-19T13:30:00,
                            ),
                            duration: TimeDelta {
                                secs: 36000,
                                nanos: 0,
                            },
                        },
                    ),
                ],
            ),
        ],
        alarms: [],
        x_prop: {},
        iana_prop: {},
    },
)
") = true.
Proof. vm_compute. reflexivity. Qed.
(** tests/events/issue_464_invalid_rdate.ics *)
Example file61 : is_err (vevent_of_str (crlf (lit "BEGIN:VEVENT
SUMMARY:RDATE period
DTSTART:19961230T020000Z
DTSTAMP:19961230T020000Z
DTEND:19961230T060000Z
UID:rdate_period
RDATE;VALUE=PERIOD:19970101T180000Z/19970102T070000Z,199709T180000Z/PT5H30M
END:VEVENT
"))) = true.
Proof. vm_compute. reflexivity. Qed.
(** tests/events/issue_53_description_parsed_properly.ics *)
Example file62 : shows (debug_result (g_vevent f32d) (vevent_of_str (crlf (lit "BEGIN:VEVENT
DTSTAMP:20120605T003759Z
DTSTART;TZID=America/New_York:20120712T183000
DTEND;TZID=America/New_York:20120712T213000
STATUS:CONFIRMED
SUMMARY:DevOps DC Meetup
DESCRIPTION:DevOpsDC\nThursday\, July 12 at 6:30 PM\n\nThis will be a joi
 nt meetup / hack night with the DC jQuery Users Group.   The idea behind
  the hack night:  Small teams consisting of at least 1 member...\n\nDeta
 ils: http://www.meetup.com/DevOpsDC/events/47635522/
CLASS:PUBLIC
CREATED:20120111T120339Z
GEO:38.90;-77.01
LOCATION:Fathom Creative\, Inc. (1333 14th Street Northwest\, Washington
 D.C.\, DC 20005)
URL:http://www.meetup.com/DevOpsDC/events/47635522/
LAST-MODIFIED:20120522T174406Z
UID:event_qtkfrcyqkbnb@meetup.com
END:VEVENT
")))) (lit "Ok(
    VEvent {
        dtstamp: Local(
            2012-06-05T02:37:59+02:00,
        ),
        uid: Text {
            params: {},
            text: ""event_qtkfrcyqkbnb@meetup.com"",
        },
        dtstart: DateTime(
            Naive(
                2012-07-12T18:30:00,
            ),
        ),
        class: Some(
            Public,
        ),
        created: Some(
            Local(
                2012-01-11T13:03:39+01:00,
            ),
        ),
        description: Some(
            Text {
                params: {},
                text: ""DevOpsDC\\nThursday\\, July 12 at 6:30 PM\\n\\nThis will be a joint meetup / hack night with the DC jQuery Users Group.   The idea behind the hack night:  Small teams consisting of at least 1 member...\\n\\nDetails: http://www.meetup.com/DevOpsDC/events/47635522/"",
            },
        ),
        geo: Some(
            Geo {
                lat: 38.9,
                lon: -77.01,
            },
        ),
        last_modified: Some(
            Local(
                2012-05-22T19:44:06+02:00,
            ),
        ),
        location: Some(
            Text {
                params: {},
                text: ""Fathom Creative\\, Inc. (1333 14th Street Northwest\\, WashingtonD.C.\\, DC 20005)"",
            },
        ),
        organizer: None,
        priority: None,
        sequence: None,
        status: Some(
            Confirmed,
        ),
        summary: Some(
            Text {
                params: {},
                text: ""DevOps DC Meetup"",
            },
        ),
        transp: None,
        url: Some(
            Uri {
                params: {},
                uri: ""http://www.meetup.com/DevOpsDC/events/47635522/"",
            },
        ),
        recurid: None,
        rrule: None,
        dtend: Some(
            DateTime(
                Naive(
                    2012-07-12T21:30:00,
                ),
            ),
        ),
        duration: None,
        attach: [],
        attendee: [],
        categories: [],
        comment: [],
        contact: [],
        exdate: [],
        rstatus: [],
        related_to: [],
        resources: [],
        rdate: [],
        alarms: [],
        x_prop: {},
        iana_prop: {},
    },
)
") = true.
Proof. vm_compute. reflexivity. Qed.
(** tests/events/issue_64_event_with_ascii_summary.ics *)
Example file63 : shows (debug_result (g_vevent f32d) (vevent_of_str (crlf (lit "BEGIN:VEVENT
DTSTAMP:20170209T192358
UID:5UILHLI7RI6K2IDRAQX7O
DTSTART;VALUE=DATE:20170209
SUMMARY:abcdef
END:VEVENT
")))) (lit "Ok(
    VEvent {
        dtstamp: Naive(
            2017-02-09T19:23:58,
        ),
        uid: Text {
            params: {},
            text: ""5UILHLI7RI6K2IDRAQX7O"",
        },
        dtstart: Date(
            2017-02-09,
        ),
        class: None,
        created: None,
        description: None,
        geo: None,
        last_modified: None,
        location: None,
        organizer: None,
        priority: None,
        sequence: None,
        status: None,
        summary: Some(
            Text {
                params: {},
                text: ""abcdef"",
            },
        ),
        transp: None,
        url: None,
        recurid: None,
        rrule: None,
        dtend: None,
        duration: None,
        attach: [],
        attendee: [],
        categories: [],
        comment: [],
        contact: [],
        exdate: [],
        rstatus: [],
        related_to: [],
        resources: [],
        rdate: [],
        alarms: [],
        x_prop: {},
        iana_prop: {},
    },
)
") = true.
Proof. vm_compute. reflexivity. Qed.
(** tests/events/issue_64_event_with_non_ascii_summary.ics *)
Example file64 : shows (debug_result (g_vevent f32d) (vevent_of_str (crlf (lit "BEGIN:VEVENT
DTSTAMP:20170209T192358
UID:5UILHLI7RI6K2IDRAQX7O
DTSTART;VALUE=DATE:20170209
SUMMARY:" ++ [229] ++ [228] ++ [246] ++ lit "
END:VEVENT
")))) (lit "Ok(
    VEvent {
        dtstamp: Naive(
            2017-02-09T19:23:58,
        ),
        uid: Text {
            params: {},
            text: ""5UILHLI7RI6K2IDRAQX7O"",
        },
        dtstart: Date(
            2017-02-09,
        ),
        class: None,
        created: None,
        description: None,
        geo: None,
        last_modified: None,
        location: None,
        organizer: None,
        priority: None,
        sequence: None,
        status: None,
        summary: Some(
            Text {
                params: {},
                text: """ ++ [229] ++ [228] ++ [246] ++ lit """,
            },
        ),
        transp: None,
        url: None,
        recurid: None,
        rrule: None,
        dtend: None,
        duration: None,
        attach: [],
        attendee: [],
        categories: [],
        comment: [],
        contact: [],
        exdate: [],
        rstatus: [],
        related_to: [],
        resources: [],
        rdate: [],
        alarms: [],
        x_prop: {},
        iana_prop: {},
    },
)
") = true.
Proof. vm_compute. reflexivity. Qed.
(** tests/events/issue_70_rrule_causes_attribute_error.ics *)
Example file65 : shows (debug_result (g_vevent f32d) (vevent_of_str (lit "BEGIN:VEVENT" ++ [13] ++ lit "
CREATED:20081114T072804Z" ++ [13] ++ lit "
UID:D449CA84-00A3-4E55-83E1-34B58268853B" ++ [13] ++ lit "
DTEND:20070220T180000" ++ [13] ++ lit "
RRULE:FREQ=WEEKLY;INTERVAL=2;UNTIL=20070619T225959" ++ [13] ++ lit "
TRANSP:OPAQUE" ++ [13] ++ lit "
SUMMARY:Esb mellon phone conf" ++ [13] ++ lit "
DTSTART:20070220T170000" ++ [13] ++ lit "
DTSTAMP:20070221T095412Z" ++ [13] ++ lit "
SEQUENCE:0" ++ [13] ++ lit "
END:VEVENT" ++ [13] ++ lit "

"))) (lit "Ok(
    VEvent {
        dtstamp: Local(
            2007-02-21T10:54:12+01:00,
        ),
        uid: Text {
            params: {},
            text: ""D449CA84-00A3-4E55-83E1-34B58268853B"",
        },
        dtstart: DateTime(
            Naive(
                2007-02-20T17:00:00,
            ),
        ),
        class: None,
        created: Some(
            Local(
                2008-11-14T08:28:04+01:00,
            ),
        ),
        description: None,
        geo: None,
        last_modified: None,
        location: None,
        organizer: None,
        priority: None,
        sequence: Some(
            0,
        ),
        status: None,
        summary: Some(
            Text {
                params: {},
                text: ""Esb mellon phone conf"",
            },
        ),
        transp: Some(
            Opaque,
        ),
        url: None,
        recurid: None,
        rrule: Some(
            Recur {
                freq: Weekly,
                until: Some(
                    DateTime(
                        Naive(
                            2007-06-19T22:59:59,
                        ),
                    ),
                ),
                count: None,
                interval: 2,
                by_second: [],
                by_minute: [],
                by_hour: [],
                by_day: [],
                by_monthday: [],
                by_yearday: [],
                by_weekno: [],
                by_month: [],
                by_setpos: [],
                wkst: None,
            },
        ),
        dtend: Some(
            DateTime(
                Naive(
                    2007-02-20T18:00:00,
                ),
            ),
        ),
        duration: None,
        attach: [],
        attendee: [],
        categories: [],
        comment: [],
        contact: [],
        exdate: [],
        rstatus: [],
        related_to: [],
        resources: [],
        rdate: [],
        alarms: [],
        x_prop: {},
        iana_prop: {},
    },
)
") = true.
Proof. vm_compute. reflexivity. Qed.
(** tests/events/issue_82_expected_output.ics *)
Example file66 : shows (debug_result (g_vevent f32d) (vevent_of_str (crlf (lit "BEGIN:VEVENT
DTSTAMP:20170209T192358
UID:5UILHLI7RI6K2IDRAQX7O
DTSTART;VALUE=DATE:20170209
ATTACH;ENCODING=BASE64;FMTTYPE=text/plain;VALUE=BINARY:dGV4dA==
END:VEVENT
")))) (lit "Ok(
    VEvent {
        dtstamp: Naive(
            2017-02-09T19:23:58,
        ),
        uid: Text {
            params: {},
            text: ""5UILHLI7RI6K2IDRAQX7O"",
        },
        dtstart: Date(
            2017-02-09,
        ),
        class: None,
        created: None,
        description: None,
        geo: None,
        last_modified: None,
        location: None,
        organizer: None,
        priority: None,
        sequence: None,
        status: None,
        summary: None,
        transp: None,
        url: None,
        recurid: None,
        rrule: None,
        dtend: None,
        duration: None,
        attach: [
            Text {
                params: {
                    ""ENCODING"": ""BASE64"",
                    ""FMTTYPE"": ""text/plain"",
                    ""VALUE"": ""BINARY"",
                },
                text: ""dGV4dA=="",
            },
        ],
        attendee: [],
        categories: [],
        comment: [],
        contact: [],
        exdate: [],
        rstatus: [],
        related_to: [],
        resources: [],
        rdate: [],
        alarms: [],
        x_prop: {},
        iana_prop: {},
    },
)
") = true.
Proof. vm_compute. reflexivity. Qed.
(** tests/freebusy/1.ics *)
Example file67 : shows (debug_result (g_vfreebusy f32d) (vfreebusy_of_str (crlf (lit "BEGIN:VFREEBUSY
UID:19970901T082949Z-FA43EF@example.com
ORGANIZER:mailto:jane_doe@example.com
ATTENDEE:mailto:john_public@example.com
DTSTART:19971015T050000Z
DTEND:19971016T050000Z
DTSTAMP:19970901T083000Z
END:VFREEBUSY
")))) (lit "Ok(
    VFreebusy {
        dtstamp: Local(
            1997-09-01T10:30:00+02:00,
        ),
        uid: Text {
            params: {},
            text: ""19970901T082949Z-FA43EF@example.com"",
        },
        contact: None,
        dtstart: Some(
            DateTime(
                Local(
                    1997-10-15T07:00:00+02:00,
                ),
            ),
        ),
        dtend: Some(
            DateTime(
                Local(
                    1997-10-16T07:00:00+02:00,
                ),
            ),
        ),
        organizer: Some(
            Uri {
                params: {},
                uri: ""mailto:jane_doe@example.com"",
            },
        ),
        url: None,
        attendee: [
            Uri {
                params: {},
                uri: ""mailto:john_public@example.com"",
            },
        ],
        comment: [],
        freebusy: [],
        rstatus: [],
        x_prop: {},
        iana_prop: {},
    },
)
") = true.
Proof. vm_compute. reflexivity. Qed.
(** tests/freebusy/2.ics *)
Example file68 : shows (debug_result (g_vfreebusy f32d) (vfreebusy_of_str (crlf (lit "BEGIN:VFREEBUSY
UID:19970901T095957Z-76A912@example.com
ORGANIZER:mailto:jane_doe@example.com
ATTENDEE:mailto:john_public@example.com
DTSTAMP:19970901T100000Z
FREEBUSY:19971015T050000Z/PT8H30M,
 19971015T160000Z/PT5H30M,19971015T223000Z/PT6H30M
URL:http://example.com/pub/busy/jpublic-01.ifb
COMMENT:This iCalendar file contains busy time information for
  the next three months.
END:VFREEBUSY
")))) (lit "Ok(
    VFreebusy {
        dtstamp: Local(
            1997-09-01T12:00:00+02:00,
        ),
        uid: Text {
            params: {},
            text: ""19970901T095957Z-76A912@example.com"",
        },
        contact: None,
        dtstart: None,
        dtend: None,
        organizer: Some(
            Uri {
                params: {},
                uri: ""mailto:jane_doe@example.com"",
            },
        ),
        url: Some(
            Uri {
                params: {},
                uri: ""http://example.com/pub/busy/jpublic-01.ifb"",
            },
        ),
        attendee: [
            Uri {
                params: {},
                uri: ""mailto:john_public@example.com"",
            },
        ],
        comment: [
            Text {
                params: {},
                text: ""This iCalendar file contains busy time information for the next three months."",
            },
        ],
        freebusy: [
            StartDur(
                StartDur {
                    start: Local(
                        1997-10-15T07:00:00+02:00,
                    ),
                    duration: TimeDelta {
                        secs: 30600,
                        nanos: 0,
                    },
                },
            ),
            StartDur(
                StartDur {
                    start: Local(
                        1997-10-15T18:00:00+02:00,
                    ),
                    duration: TimeDelta {
                        secs: 19800,
                        nanos: 0,
                    },
                },
            ),
            StartDur(
                StartDur {
                    start: Local(
                        1997-10-16T00:30:00+02:00,
                    ),
                    duration: TimeDelta {
                        secs: 23400,
                        nanos: 0,
                    },
                },
            ),
        ],
        rstatus: [],
        x_prop: {},
        iana_prop: {},
    },
)
") = true.
Proof. vm_compute. reflexivity. Qed.
(** tests/freebusy/3.ics *)
Example file69 : shows (debug_result (g_vfreebusy f32d) (vfreebusy_of_str (crlf (lit "BEGIN:VFREEBUSY
UID:19970901T115957Z-76A912@example.com
DTSTAMP:19970901T120000Z
ORGANIZER:jsmith@example.com
DTSTART:19980313T141711Z
DTEND:19980410T141711Z
FREEBUSY:19980314T233000Z/19980315T003000Z
FREEBUSY:19980316T153000Z/19980316T163000Z
FREEBUSY:19980318T030000Z/19980318T040000Z
URL:http://www.example.com/calendar/busytime/jsmith.ifb
END:VFREEBUSY
")))) (lit "Ok(
    VFreebusy {
        dtstamp: Local(
            1997-09-01T14:00:00+02:00,
        ),
        uid: Text {
            params: {},
            text: ""19970901T115957Z-76A912@example.com"",
        },
        contact: None,
        dtstart: Some(
            DateTime(
                Local(
                    1998-03-13T15:17:11+01:00,
                ),
            ),
        ),
        dtend: Some(
            DateTime(
                Local(
                    1998-04-10T16:17:11+02:00,
                ),
            ),
        ),
        organizer: Some(
            Uri {
                params: {},
                uri: ""jsmith@example.com"",
            },
        ),
        url: Some(
            Uri {
                params: {},
                uri: ""http://www.example.com/calendar/busytime/jsmith.ifb"",
            },
        ),
        attendee: [],
        comment: [],
        freebusy: [
            StartEnd(
                StartEnd {
                    start: Local(
                        1998-03-15T00:30:00+01:00,
                    ),
                    end: Local(
                        1998-03-15T01:30:00+01:00,
                    ),
                },
            ),
            StartEnd(
                StartEnd {
                    start: Local(
                        1998-03-16T16:30:00+01:00,
                    ),
                    end: Local(
                        1998-03-16T17:30:00+01:00,
                    ),
                },
            ),
            StartEnd(
                StartEnd {
                    start: Local(
                        1998-03-18T04:00:00+01:00,
                    ),
                    end: Local(
                        1998-03-18T05:00:00+01:00,
                    ),
                },
            ),
        ],
        rstatus: [],
        x_prop: {},
        iana_prop: {},
    },
)
") = true.
Proof. vm_compute. reflexivity. Qed.
(** tests/journals/1.ics *)
Example file70 : shows (debug_result (g_vjournal f32d) (vjournal_of_str (crlf (lit "BEGIN:VJOURNAL
UID:19970901T130000Z-123405@example.com
DTSTAMP:19970901T130000Z
DTSTART;VALUE=DATE:19970317
SUMMARY:Staff meeting minutes
DESCRIPTION:1. Staff meeting: Participants include Joe\,
 Lisa\, and Bob. Aurora project plans were reviewed.
 There is currently no budget reserves for this project.
 Lisa will escalate to management. Next meeting on Tuesday.\n
 2. Telephone Conference: ABC Corp. sales representative
 called to discuss new printer. Promised to get us a demo by
 Friday.\n3. Henry Miller (Handsoff Insurance): Car was
 totaled by tree. Is looking into a loaner car. 555-2323
 (tel).
END:VJOURNAL
")))) (lit "Ok(
    VJournal {
        dtstamp: Local(
            1997-09-01T15:00:00+02:00,
        ),
        uid: Text {
            params: {},
            text: ""19970901T130000Z-123405@example.com"",
        },
        class: None,
        created: None,
        dtstart: Date(
            1997-03-17,
        ),
        last_modified: None,
        organizer: None,
        recurid: None,
        sequence: None,
        status: None,
        summary: Some(
            Text {
                params: {},
                text: ""Staff meeting minutes"",
            },
        ),
        url: None,
        rrule: None,
        attach: [],
        attendee: [],
        categories: [],
        comment: [],
        contact: [],
        description: [
            Text {
                params: {},
                text: ""1. Staff meeting: Participants include Joe\\,Lisa\\, and Bob. Aurora project plans were reviewed.There is currently no budget reserves for this project.Lisa will escalate to management. Next meeting on Tuesday.\\n2. Telephone Conference: ABC Corp. sales representativecalled to discuss new printer. Promised to get us a demo byFriday.\\n3. Henry Miller (Handsoff Insurance): Car wastotaled by tree. Is looking into a loaner car. 555-2323(tel)."",
            },
        ],
        exdate: [],
        related_to: [],
        rdate: [],
        rstatus: [],
        x_prop: {},
        iana_prop: {},
    },
)
") = true.
Proof. vm_compute. reflexivity. Qed.
(** tests/timezones/issue_237_brazilia_standard.ics *)
Example file71 : shows (debug_result (g_vtimezone) (vtimezone_of_str (crlf (lit "BEGIN:VTIMEZONE
TZID:(UTC-03:00) Bras" ++ [237] ++ lit "lia
BEGIN:STANDARD
TZNAME:Bras" ++ [237] ++ lit "lia standard
DTSTART:16010101T235959
TZOFFSETFROM:-0200
TZOFFSETTO:-0300
RRULE:FREQ=YEARLY;INTERVAL=1;BYDAY=3SA;BYMONTH=2
END:STANDARD
BEGIN:DAYLIGHT
TZNAME:Bras" ++ [237] ++ lit "lia daylight
DTSTART:16010101T235959
TZOFFSETFROM:-0300
TZOFFSETTO:-0200
RRULE:FREQ=YEARLY;INTERVAL=1;BYDAY=2SA;BYMONTH=10
END:DAYLIGHT
END:VTIMEZONE
")))) (lit "Ok(
    VTimezone {
        tzid: Text {
            params: {},
            text: ""(UTC-03:00) Bras" ++ [237] ++ lit "lia"",
        },
        last_modified: None,
        tzurl: None,
        standard: [
            Standard {
                dtstart: DateTime(
                    Naive(
                        1601-01-01T23:59:59,
                    ),
                ),
                tzoffsetto: -03:00,
                tzoffsetfrom: -02:00,
                rrule: Some(
                    Recur {
                        freq: Yearly,
                        until: None,
                        count: None,
                        interval: 1,
                        by_second: [],
                        by_minute: [],
                        by_hour: [],
                        by_day: [
                            WeekdayNum {
                                weekday: Saturday,
                                ord: Some(
                                    3,
                                ),
                            },
                        ],
                        by_monthday: [],
                        by_yearday: [],
                        by_weekno: [],
                        by_month: [
                            2,
                        ],
                        by_setpos: [],
                        wkst: None,
                    },
                ),
                comment: [],
                rdate: [],
                tzname: [
                    Text {
                        params: {},
                        text: ""Bras" ++ [237] ++ lit "lia standard"",
                    },
                ],
                x_prop: {},
                iana_prop: {},
            },
        ],
        daylight: [
            Daylight {
                dtstart: DateTime(
                    Naive(
                        1601-01-01T23:59:59,
                    ),
                ),
                tzoffsetto: -02:00,
                tzoffsetfrom: -03:00,
                rrule: Some(
                    Recur {
                        freq: Yearly,
                        until: None,
                        count: None,
                        interval: 1,
                        by_second: [],
                        by_minute: [],
                        by_hour: [],
                        by_day: [
                            WeekdayNum {
                                weekday: Saturday,
                                ord: Some(
                                    2,
                                ),
                            },
                        ],
                        by_monthday: [],
                        by_yearday: [],
                        by_weekno: [],
                        by_month: [
                            10,
                        ],
                        by_setpos: [],
                        wkst: None,
                    },
                ),
                comment: [],
                rdate: [],
                tzname: [
                    Text {
                        params: {},
                        text: ""Bras" ++ [237] ++ lit "lia daylight"",
                    },
                ],
                x_prop: {},
                iana_prop: {},
            },
        ],
        x_prop: {},
        iana_prop: {},
    },
)
") = true.
Proof. vm_compute. reflexivity. Qed.
(** tests/timezones/issue_53_tzid_parsed_properly.ics *)
Example file72 : shows (debug_result (g_vtimezone) (vtimezone_of_str (crlf (lit "BEGIN:VTIMEZONE
TZID:America/New_York
TZURL:http://tzurl.org/zoneinfo-outlook/America/New_York
X-LIC-LOCATION:America/New_York
BEGIN:DAYLIGHT
TZOFFSETFROM:-0500
TZOFFSETTO:-0400
TZNAME:EDT
DTSTART:19700308T020000
RRULE:FREQ=YEARLY;BYMONTH=3;BYDAY=2SU
END:DAYLIGHT
BEGIN:STANDARD
TZOFFSETFROM:-0400
TZOFFSETTO:-0500
TZNAME:EST
DTSTART:19701101T020000
RRULE:FREQ=YEARLY;BYMONTH=11;BYDAY=1SU
END:STANDARD
END:VTIMEZONE
")))) (lit "Ok(
    VTimezone {
        tzid: Text {
            params: {},
            text: ""America/New_York"",
        },
        last_modified: None,
        tzurl: Some(
            Uri {
                params: {},
                uri: ""http://tzurl.org/zoneinfo-outlook/America/New_York"",
            },
        ),
        standard: [
            Standard {
                dtstart: DateTime(
                    Naive(
                        1970-11-01T02:00:00,
                    ),
                ),
                tzoffsetto: -05:00,
                tzoffsetfrom: -04:00,
                rrule: Some(
                    Recur {
                        freq: Yearly,
                        until: None,
                        count: None,
                        interval: 1,
                        by_second: [],
                        by_minute: [],
                        by_hour: [],
                        by_day: [
                            WeekdayNum {
                                weekday: Sunday,
                                ord: Some(
                                    1,
                                ),
                            },
                        ],
                        by_monthday: [],
                        by_yearday: [],
                        by_weekno: [],
                        by_month: [
                            11,
                        ],
                        by_setpos: [],
                        wkst: None,
                    },
                ),
                comment: [],
                rdate: [],
                tzname: [
                    Text {
                        params: {},
                        text: ""EST"",
                    },
                ],
                x_prop: {},
                iana_prop: {},
            },
        ],
        daylight: [
            Daylight {
                dtstart: DateTime(
                    Naive(
                        1970-03-08T02:00:00,
                    ),
                ),
                tzoffsetto: -04:00,
                tzoffsetfrom: -05:00,
                rrule: Some(
                    Recur {
                        freq: Yearly,
                        until: None,
                        count: None,
                        interval: 1,
                        by_second: [],
                        by_minute: [],
                        by_hour: [],
                        by_day: [
                            WeekdayNum {
                                weekday: Sunday,
                                ord: Some(
                                    2,
                                ),
                            },
                        ],
                        by_monthday: [],
                        by_yearday: [],
                        by_weekno: [],
                        by_month: [
                            3,
                        ],
                        by_setpos: [],
                        wkst: None,
                    },
                ),
                comment: [],
                rdate: [],
                tzname: [
                    Text {
                        params: {},
                        text: ""EDT"",
                    },
                ],
                x_prop: {},
                iana_prop: {},
            },
        ],
        x_prop: {
            ""X-LIC-LOCATION"": ContentLine {
                params: {},
                value: ""America/New_York"",
            },
        },
        iana_prop: {},
    },
)
") = true.
Proof. vm_compute. reflexivity. Qed.
(** tests/timezones/issue_55_parse_error_on_utc_offset_with_seconds.ics *)
Example file73 : shows (debug_result (g_vtimezone) (vtimezone_of_str (crlf (lit "BEGIN:VTIMEZONE
TZID:America/Los Angeles
BEGIN:STANDARD
DTSTART:18831118T120702
RDATE:18831118T120702
TZNAME:PST
TZOFFSETFROM:-075258
TZOFFSETTO:-0800
END:STANDARD
END:VTIMEZONE
")))) (lit "Ok(
    VTimezone {
        tzid: Text {
            params: {},
            text: ""America/Los Angeles"",
        },
        last_modified: None,
        tzurl: None,
        standard: [
            Standard {
                dtstart: DateTime(
                    Naive(
                        1883-11-18T12:07:02,
                    ),
                ),
                tzoffsetto: -08:00,
                tzoffsetfrom: -07:52,
                rrule: None,
                comment: [],
                rdate: [
                    Date(
                        [
                            DateTime(
                                Naive(
                                    1883-11-18T12:07:02,
                                ),
                            ),
                        ],
                    ),
                ],
                tzname: [
                    Text {
                        params: {},
                        text: ""PST"",
                    },
                ],
                x_prop: {},
                iana_prop: {},
            },
        ],
        daylight: [],
        x_prop: {},
        iana_prop: {},
    },
)
") = true.
Proof. vm_compute. reflexivity. Qed.
(** tests/todos/1.ics *)
Example file74 : shows (debug_result (g_vtodo f32d) (vtodo_of_str (crlf (lit "BEGIN:VTODO
UID:20070313T123432Z-456553@example.com
DTSTAMP:20070313T123432Z
DUE;VALUE=DATE:20070501
SUMMARY:Submit Quebec Income Tax Return for 2006
CLASS:CONFIDENTIAL
CATEGORIES:FAMILY,FINANCE
STATUS:NEEDS-ACTION
END:VTODO
")))) (lit "Ok(
    VTodo {
        dtstamp: Local(
            2007-03-13T13:34:32+01:00,
        ),
        uid: Text {
            params: {},
            text: ""20070313T123432Z-456553@example.com"",
        },
        class: Some(
            Confidential,
        ),
        completed: None,
        created: None,
        dtstart: None,
        geo: None,
        last_modified: None,
        location: None,
        organizer: None,
        percent_complete: None,
        priority: None,
        recurid: None,
        sequence: None,
        status: Some(
            NeedsAction,
        ),
        summary: Some(
            Text {
                params: {},
                text: ""Submit Quebec Income Tax Return for 2006"",
            },
        ),
        url: None,
        rrule: None,
        due: Some(
            Date(
                2007-05-01,
            ),
        ),
        duration: None,
        attach: [],
        attendee: [],
        categories: [
            Text {
                params: {},
                text: ""FAMILY"",
            },
            Text {
                params: {},
                text: ""FINANCE"",
            },
        ],
        comment: [],
        contact: [],
        exdate: [],
        rstatus: [],
        related_to: [],
        resources: [],
        rdate: [],
        x_prop: {},
        iana_prop: {},
    },
)
") = true.
Proof. vm_compute. reflexivity. Qed.
