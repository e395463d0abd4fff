{"id": "C01", "title": "Unfolding undoes folding", "statement": "When a property is serialised, its output is the logical line NAME[;ATTR]:VALUE CRLF, possibly folded; deleting every CRLF+SPACE from the output (what every from_str does first) gives back exactly that logical line, and concatenated lines unfold independently.", "quantifier": "every property name, attribute and value whose logical line holds no LF before its final CRLF, and every sequence of such lines", "why_tests_cant": "the fold point can fall anywhere in the line, including between CR and LF; only a proof covers every position and length", "anchors": ["src/ser.rs: field, split", "derive/src/component.rs: from_str", "src/components/valarm.rs: from_str"]}
{"id": "C02", "title": "Physical line length", "statement": "Every physical line of a serialised property is at most 75 octets for the first and at most 76 octets for a continuation, line break excluded; lines whose logical length (with CRLF) is at most 75 octets are not folded. The RFC 5545 bound of 75 octets for continuation lines does not hold.", "quantifier": "every property name and every value that serialises without panicking", "why_tests_cant": "a statement about every chunk of every line length", "anchors": ["src/ser.rs: field, split"]}
{"id": "C03", "title": "Folding is panic-free exactly on char-aligned text", "statement": "Serialising a property whose logical line exceeds 75 bytes panics if and only if some multiple of 75 bytes inside the line falls inside a multi-byte character; a pure ASCII property never panics.", "quantifier": "every property name and value (ASCII and multi-byte)", "why_tests_cant": "depends on the byte offset of every character; needs all strings", "anchors": ["src/ser.rs: field, split"]}
{"id": "C04", "title": "Escaping is RFC-decodable exactly without backslashes", "statement": "Text serialisation replaces every ';' ',' and LF by its backslash form and changes nothing else; the output has no raw LF and no unescaped ';' or ','. Decoding it by the RFC 5545 rules gives the original text for every text without a backslash; with backslashes two different texts can serialise alike.", "quantifier": "every string", "why_tests_cant": "injectivity and decodability range over all strings", "anchors": ["src/ser.rs: escape"]}
{"id": "C05", "title": "Parsing never unescapes", "statement": "Parsing back a serialised text property gives exactly the escaped text (not the original), so a text property survives a round trip if and only if it holds no ';' ',' or LF; every further write/read cycle escapes again, so the text grows strictly for ever once it holds ';' or ','.", "quantifier": "every text value without CR and every number of write/read cycles", "why_tests_cant": "a property of arbitrarily many cycles and every text", "anchors": ["src/properties/text.rs: From<ContentLine>, Serialize", "src/parser/datatype.rs: text", "src/ser.rs: escape"]}
{"id": "C06", "title": "Content line syntax is exact", "statement": "A content line is accepted exactly when it does not start with BEGIN: or END:, and reads KEY *(;PARAM=VALUE) : VALUE followed by LF or CRLF; the key has only letters, digits, '-' and '/', the value no CR or LF, and the accepted text is consumed exactly (input = line + rest).", "quantifier": "every input string", "why_tests_cant": "soundness of a parser over all strings", "anchors": ["src/parser/mod.rs: content_line, key, params, param, value"]}
{"id": "C07", "title": "Reading lines always stops and never fails or panics", "statement": "Reading a run of content lines terminates on every input without panic, returns the longest run of accepted lines, in order, and leaves a remainder that does not itself start with an accepted content line.", "quantifier": "every input string", "why_tests_cant": "termination and totality range over all inputs", "anchors": ["src/parser/mod.rs: content_lines"]}
{"id": "C08", "title": "Parameter lists keep the last value per name", "statement": "The parameters of a line form a map: each name occurring in the line is bound to its last value, and no other name is bound.", "quantifier": "every list of parameters", "why_tests_cant": "arbitrary number and order of duplicates", "anchors": ["src/parser/mod.rs: params"]}
{"id": "C09", "title": "Safe parameters and values round trip through a line", "statement": "Writing a line from a name, a parameter map and a value, and parsing it, gives back the same name, map and value whenever parameter names are made of letters, digits, '-' '/', parameter values hold none of ; , : CR LF and do not start with a double quote, and the value holds no CR or LF. A parameter value holding ':' is not preserved.", "quantifier": "every name, parameter map and value satisfying the stated character conditions", "why_tests_cant": "quantifies over all maps and strings", "anchors": ["src/ser.rs: field, BTreeMap Serialize", "src/parser/mod.rs: content_line"]}
{"id": "C10", "title": "Required properties", "statement": "A component parses only if every required property is present and its last occurrence is valid; the field is the value of the last occurrence, and earlier occurrences are not even validated. A missing required property is an error, never a default; only an alarm whose last TRIGGER is out of range panics instead.", "quantifier": "every list of content lines and every component type", "why_tests_cant": "all line orders and duplicates", "anchors": ["derive/src/component.rs: new_part, try_from"]}
{"id": "C11", "title": "Optional and repeated properties", "statement": "After a successful parse an optional field is the last occurrence's value (or none when absent), a list field holds one entry per occurrence in file order, and a comma-list field the concatenation of all occurrences in file order; an invalid occurrence anywhere fails the component.", "quantifier": "every list of content lines and every component type", "why_tests_cant": "all line orders and multiplicities", "anchors": ["derive/src/component.rs: from_part, try_from"]}
{"id": "C12", "title": "No line is lost", "statement": "A line whose name is no field of the component ends up, whole, in x_prop when its name starts with X- and in iana_prop otherwise (last line per name wins); these two maps hold nothing else.", "quantifier": "every list of content lines and every component type", "why_tests_cant": "all lists of lines", "anchors": ["derive/src/component.rs: try_from"]}
{"id": "C13", "title": "RFC names RECURRENCE-ID and REQUEST-STATUS are not recognised", "statement": "A RECURRENCE-ID line never sets recurid and a REQUEST-STATUS line never sets rstatus: both go to iana_prop, and serialising recurid or rstatus writes the non-RFC names RECURID and RSTATUS.", "quantifier": "every list of content lines and every component that has these fields", "why_tests_cant": "a negative statement over all inputs", "anchors": ["src/components/vevent.rs: VEvent", "derive/src/component.rs: field_name"]}
{"id": "C14", "title": "Calendar children keep their order", "statement": "After a successful calendar parse, each child list (events, todo, journals, freebusy, timezones, alarms) holds exactly the parsed children of that kind, in file order, and the total number of children equals the number of child components in the file.", "quantifier": "every input accepted as a calendar", "why_tests_cant": "all interleavings of child kinds", "anchors": ["src/parser/components.rs: vcalendar, components, component", "src/parser/components.rs: vtimezone"]}
{"id": "C15", "title": "One bad child fails the whole calendar", "statement": "If the text between two children (or a child itself) is not an acceptable component, the calendar is rejected: an accepted calendar is BEGIN:VCALENDAR CRLF, content lines, components, END:VCALENDAR and nothing in between.", "quantifier": "every input string", "why_tests_cant": "soundness over all strings", "anchors": ["src/parser/components.rs: vcalendar"]}
{"id": "C16", "title": "Parser panics are confined", "statement": "Parsing a component never panics unless it holds an RRULE without FREQ, a period without '/', a duration beyond chrono's range or an alarm without ACTION. Exactly: a text panics if and only if it is well formed up to a child (or nested alarm / time-zone part) whose content lines reach a fatal line before any error - the lines before it, completed by the required properties after it, form a component - or whose alarm has no ACTION or a fatal last TRIGGER. Adding one fatal line anywhere to a readable component makes it panic, so untrusted input can crash the caller.", "quantifier": "every content line list / every input", "why_tests_cant": "absence of panics ranges over all inputs", "anchors": ["src/parser/recurrence.rs: rrule", "src/parser/datatype.rs: period, duration", "src/components/valarm.rs: try_from"]}
{"id": "C17", "title": "Alarm kinds cannot be parsed on their own", "statement": "Parsing an Audio, Display or Email alarm directly from a string panics on every input; parsing through VAlarm dispatches on the first ACTION line.", "quantifier": "every input string", "why_tests_cant": "universal statement over inputs", "anchors": ["src/parser/components.rs: audio, display, email", "src/components/valarm.rs"]}
{"id": "C18", "title": "Calendar arithmetic agrees with the Gregorian calendar", "statement": "The day count used for dates and the year/month/day read from it are mutually inverse, every date read is a valid Gregorian date, and adding one day moves to the calendar successor.", "quantifier": "every day in chrono's supported range", "why_tests_cant": "hundreds of millions of days, leap rules", "anchors": ["src/properties/recur.rs: Add<NaiveDate>", "src/properties/date.rs: Date"]}
{"id": "C19", "title": "Date round trip", "statement": "A date with a year from 0 to 9999 serialises to eight digits and parses back to itself, by both FromStr and the property parser; a date with a year above 9999 or below 0 serialises to a text that neither accepts.", "quantifier": "every supported date", "why_tests_cant": "all dates", "anchors": ["src/properties/date.rs: Display/FromStr for Date", "src/parser/datatype.rs: date, date_or_dt"]}
{"id": "C20", "title": "Only real dates and times are accepted", "statement": "Whenever a date or date-time parses, the year, month and day read from the text form an existing Gregorian date and the time is at most 23:59:60; the result is that date. Conversely every YYYYMMDD and YYYYMMDDTHHMMSS[Z] of a real date and time is accepted with that value; with Z the property reader takes it as UTC while FromStr takes the local wall clock. Exactly: for every text, whether a date or date-time property accepts it and with which value is given by a grammar (blanks and 1-4 or signed year digits, 1-2 digits for each other number, an existing day of years -262143..262142, times up to 23:59:60, one or more Z for UTC); these readers never panic, and FromStr panics only when the time before a single Z is skipped or ambiguous in the local zone.", "quantifier": "every input string", "why_tests_cant": "soundness over all strings", "anchors": ["src/parser/datatype.rs: date, date_time", "src/properties/date.rs: FromStr"]}
{"id": "C21", "title": "Naive date-time round trip", "statement": "A zone-less date-time with year 0..9999 and no fraction of a second (leap second included) serialises to YYYYMMDDTHHMMSS and parses back to itself through both FromStr and the property parser, never as a date.", "quantifier": "every such date-time", "why_tests_cant": "all date-times", "anchors": ["src/properties/date.rs: DateTime", "src/parser/datatype.rs: date_time, date_or_dt"]}
{"id": "C22", "title": "UTC date-times are written in local time", "statement": "A zoned date-time is serialised as the local wall clock followed by Z, yet the property parser reads Z as UTC: a write/read cycle moves the instant by exactly the local UTC offset, so it is the identity exactly when that offset is 0; FromStr instead reads the text as local time and returns the original instant whenever the wall clock is unambiguous, and panics when it is ambiguous or skipped.", "quantifier": "every instant and every time zone", "why_tests_cant": "all zones and instants", "anchors": ["src/properties/date.rs: Display, FromStr", "src/parser/datatype.rs: date_time"]}
{"id": "C23", "title": "Duration round trip", "statement": "A duration of a whole number of seconds serialises to [-]PTnS (or P0D) and parses back to itself; a duration with a fraction of a second parses back to zero plus nothing, silently.", "quantifier": "every duration in chrono's range", "why_tests_cant": "all durations", "anchors": ["src/ser.rs: TimeDelta", "src/parser/datatype.rs: duration"]}
{"id": "C24", "title": "Duration grammar", "statement": "A text [-]P[nW][nD][T[nH][nM][nS]] with in-range numbers parses to the signed sum of its parts. For any text: the longest prefix of that form whose numbers fit 64 bits decides (what follows is ignored); it is a panic exactly when that sum is beyond chrono's range, and an error exactly when the text does not begin with P or -P.", "quantifier": "every combination of parts, every number and every text", "why_tests_cant": "all numbers and combinations", "anchors": ["src/parser/datatype.rs: duration"]}
{"id": "C25", "title": "Macro/trigger duration parser", "statement": "The duration parser used by the macros and by Trigger::from_str returns the right value for a text with a single part, but digits accumulate across parts, so a two-part text such as PTaHbM yields a hours plus (digits of a followed by digits of b) minutes, which is wrong for every positive a. For every text: it is accepted iff it is [-]P followed by digits, T and known unit letters (Y, M, D before the T, H, M, S after), where the number of each unit is all the digits since the P and fits 64 bits, and the value is the sum; it panics iff some prefix already sums beyond the range; everything else is an error.", "quantifier": "every pair of numbers", "why_tests_cant": "all numbers", "anchors": ["src/lib.rs: parse_duration", "src/properties/trigger.rs: FromStr"]}
{"id": "C26", "title": "Recurrence rule round trip", "statement": "Every recurrence rule whose UNTIL is absent, a date or a zone-less date-time with year 0..9999 serialises to a text that parses back to the same rule, all BY lists included.", "quantifier": "every rule", "why_tests_cant": "fourteen fields of arbitrary content", "anchors": ["src/properties/recur.rs: Recur", "derive/src/serialize.rs", "src/parser/recurrence.rs: rrule"]}
{"id": "C27", "title": "Recurrence rule parsing is order-insensitive and defaulted", "statement": "Parsing a rule depends only on the last value of each known name, so reordering distinct parts changes nothing; INTERVAL defaults to 1 and BY lists to empty; COUNT or INTERVAL above 255 and BY values outside -128..127 (e.g. BYYEARDAY=200) are rejected. For every text: a rule is accepted iff it is a run of NAME=VALUE parts joined by ';' (then the end, or ';' and something that is no NAME=VALUE, ignored) whose last values are well formed, and the value is exactly what they say.", "quantifier": "every list of rule parts", "why_tests_cant": "all permutations", "anchors": ["src/parser/recurrence.rs: rrule"]}
{"id": "C28", "title": "Closed vocabularies", "statement": "STATUS, TRANSP, FREQ and weekday values round trip, distinct values have distinct texts, and STATUS, TRANSP and FREQ reject every other text; CLASS accepts every text and round trips up to upper-casing.", "quantifier": "every value and every string", "why_tests_cant": "rejection ranges over all strings", "anchors": ["src/properties/status.rs", "src/properties/time_transparency.rs", "src/properties/recur.rs: Freq, Weekday", "src/properties/class.rs"]}
{"id": "C29", "title": "Weekday numbers round trip", "statement": "Every BYDAY entry (optional ordinal from -128 to 127 and weekday) parses back to itself from its text. For every text: it is accepted iff it begins with an optional ordinal within -128..127 and a weekday name, whatever follows; the reader never panics.", "quantifier": "all 257 x 7 values", "why_tests_cant": "universal claim", "anchors": ["src/properties/recur.rs: WeekdayNum", "src/parser/mod.rs: weekdaynum"]}
{"id": "C30", "title": "UTC offset round trip", "statement": "A UTC offset of a whole number of minutes within +-24h serialises to +-HHMM and parses back to itself; an offset with seconds parses back truncated to the minute. For every text: an offset is accepted iff it begins with a sign, two digits below 24, colons or blanks, and two digits below 60, whatever follows.", "quantifier": "every offset within 24 hours", "why_tests_cant": "all 172799 offsets", "anchors": ["src/ser.rs: FixedOffset", "src/parser/timezone.rs"]}
{"id": "C31", "title": "Period round trip", "statement": "A start/end or start/non-negative whole-second duration period of zone-less date-times serialises and parses back to itself; a negative duration never does; a recurrence-date property (RDATE) serialises to a line that its own parser rejects, whatever its content. For every text: a period is accepted iff it is a date-time, '/', and a date-time or a duration beginning with P; an RDATE is a list of periods iff its VALUE parameter is PERIOD, and otherwise a list of dates.", "quantifier": "every period / every RDATE value", "why_tests_cant": "all values", "anchors": ["src/properties/period.rs", "src/properties/rdate.rs", "src/parser/datatype.rs: period", "src/parser/recurrence.rs: rdate"]}
{"id": "C32", "title": "Integer properties", "statement": "SEQUENCE, REPEAT and PERCENT-COMPLETE round trip over their whole type; a text is accepted only if it is a decimal in range. PRIORITY round trips exactly on 0..9: a priority of 10..255 can be built and is serialised, but is rejected when read.", "quantifier": "every integer and every string", "why_tests_cant": "all strings", "anchors": ["src/parser/change.rs: sequence", "src/parser/alarm.rs: repeat", "src/parser/descriptive.rs: percent_complete, priority"]}
{"id": "C33", "title": "Trigger round trip", "statement": "A trigger that is a whole-second duration or a zone-less date-time parses back to itself, and no serialised date-time trigger is ever read as a duration or conversely. For every text: a TRIGGER property is a duration or a date-time exactly as its text reads, and Trigger::from_str likewise with its own two readers.", "quantifier": "every trigger", "why_tests_cant": "all values", "anchors": ["src/properties/trigger.rs", "src/parser/alarm.rs: trigger"]}
{"id": "C34", "title": "Comma lists", "statement": "CATEGORIES, RESOURCES and EXDATE lists whose entries hold no comma parse back to the same list; entries with a comma are split. For every text: the value is the list of the comma-separated entries, each read on its own (dates for EXDATE, periods for FREEBUSY, texts without parameters for CATEGORIES and RESOURCES).", "quantifier": "every list", "why_tests_cant": "all lists", "anchors": ["src/parser/descriptive.rs: categories, resources", "src/parser/recurrence.rs: exdate", "src/ser.rs: Vec Serialize"]}
{"id": "C35", "title": "Date-time order", "statement": "Comparison of date-times is a total preorder (total, transitive) that agrees with equality on zone-less values; on mixed values it can report Equal for different values.", "quantifier": "every triple of date-times and every zone", "why_tests_cant": "all triples", "anchors": ["src/properties/date.rs: Ord for DateTime"]}
{"id": "C36", "title": "Date order is not an order", "statement": "Comparison of Date values is transitive among dates and among date-times, but not when they are mixed: there are a < c with a equal to b and b equal to c. So sorted containers of mixed Dates are unreliable. What is left: before is transitive whatever is mixed, the comparison the other way round is the opposite, and unless two times of one day are compared only the local days count.", "quantifier": "every triple", "why_tests_cant": "all triples", "anchors": ["src/properties/date.rs: Ord for Date"]}
{"id": "C37", "title": "Period order is by length", "statement": "Period comparison is a total preorder by duration, ignoring the start, so Equal does not imply equality.", "quantifier": "every pair/triple of periods", "why_tests_cant": "all pairs", "anchors": ["src/properties/period.rs: Ord"]}
{"id": "C38", "title": "No rule, no occurrence", "statement": "A component without a recurrence rule (or a to-do without a start) yields no occurrence at all, not even itself.", "quantifier": "every component", "why_tests_cant": "all components", "anchors": ["src/iter.rs: Recur::next"]}
{"id": "C39", "title": "k-th occurrence", "statement": "Without exclusions, the k-th occurrence starts at the start date advanced k times by the rule step: k*interval days / weeks / seconds etc. exactly, for every frequency below monthly; the end moves by the same step from the original end.", "quantifier": "every start, end, interval, frequency and k", "why_tests_cant": "unbounded k", "anchors": ["src/iter.rs: Recur::next", "src/properties/recur.rs: Add"]}
{"id": "C40", "title": "Exactly COUNT occurrences", "statement": "With COUNT=n and no UNTIL, the iterator yields exactly n occurrences (excluded dates do not count) and then ends, unless date arithmetic panics.", "quantifier": "every n from 0 to 255, every exclusion list", "why_tests_cant": "all n and lists", "anchors": ["src/iter.rs: Recur::next"]}
{"id": "C41", "title": "UNTIL bounds the occurrences", "statement": "No yielded occurrence starts on a day after UNTIL; without exclusions every occurrence on or before that day is yielded. With exclusions the last valid occurrence can be lost: when the date after it is excluded and past UNTIL.", "quantifier": "every rule, start and exclusion list", "why_tests_cant": "all histories", "anchors": ["src/iter.rs: Recur::next"]}
{"id": "C42", "title": "Excluded dates are skipped", "statement": "No occurrence after the first starts on an excluded date; the first is yielded even when it is excluded.", "quantifier": "every rule and exclusion list, every position in the run", "why_tests_cant": "unbounded runs", "anchors": ["src/iter.rs: Recur::next"]}
{"id": "C43", "title": "Occurrences strictly increase", "statement": "With an interval of at least 1, successive occurrences start at strictly later times (local wall clock or instant).", "quantifier": "every rule with interval >= 1, every position", "why_tests_cant": "unbounded runs", "anchors": ["src/iter.rs: Recur::next", "src/properties/recur.rs: Add"]}
{"id": "C44", "title": "next() terminates exactly for positive intervals", "statement": "With interval >= 1 each call to next() returns after at most one more step than there are exclusions; with interval 0 and an excluded start it loops for ever.", "quantifier": "every rule, every exclusion list", "why_tests_cant": "non-termination cannot be observed by a test", "anchors": ["src/iter.rs: Recur::next"]}
{"id": "C45", "title": "An ended iterator stays ended", "statement": "Once next() has returned nothing it returns nothing for ever.", "quantifier": "every iterator state, every number of calls", "why_tests_cant": "unbounded calls", "anchors": ["src/iter.rs: Recur::next"]}
{"id": "C46", "title": "Occurrences differ only in start, end and remaining count", "statement": "Every yielded occurrence equals the original component except for its start, its end and the remaining COUNT of its rule; a to-do's DUE never moves.", "quantifier": "every component, every position", "why_tests_cant": "unbounded runs", "anchors": ["src/iter.rs: Recur::next, Recurring for VTodo"]}
{"id": "C47", "title": "Event length is preserved below monthly", "statement": "For secondly to weekly rules on zone-less date-times or dates the length (end - start) of every occurrence equals the original; for monthly rules it may change.", "quantifier": "every event and position", "why_tests_cant": "unbounded runs", "anchors": ["src/iter.rs: Recur::next"]}
{"id": "C48", "title": "BY parts and WKST have no effect", "statement": "Changing any BY list or WKST of the rule changes no occurrence date.", "quantifier": "every rule and every run", "why_tests_cant": "relational property over all rules", "anchors": ["src/iter.rs: Recur::next", "src/properties/recur.rs: Add"]}
{"id": "C49", "title": "Monthly step clamps and drifts", "statement": "A monthly step lands in the month interval months later, on the same day or that month's last day if shorter; a clamped day is never recovered, so a run starting on the 31st drifts.", "quantifier": "every date and interval, every position", "why_tests_cant": "all dates", "anchors": ["src/properties/recur.rs: Add"]}
{"id": "C50", "title": "Yearly step", "statement": "A yearly step keeps month and day and adds interval years; it panics exactly when that date does not exist (29 February into a common year) or is out of range - and the panic hits before the current occurrence is yielded.", "quantifier": "every date and interval", "why_tests_cant": "all dates", "anchors": ["src/properties/recur.rs: Add", "src/iter.rs: Recur::next"]}
{"id": "C51", "title": "between, at and after select a window", "statement": "For a rule with interval >= 1, between(s,e) yields exactly the occurrences with s <= start < e, in order, after(s) those with s <= start, and at(d) those with d <= start < d + 1 day (all in the crate's own order, for starts and bounds of one kind). With dates as bounds the window has the occurrences of those local days, at whatever time, and adjacent windows join without loss or repetition.", "quantifier": "every run and window", "why_tests_cant": "unbounded runs", "anchors": ["src/iter.rs: between, at, after"]}
{"id": "C52", "title": "Local occurrences follow the instant", "statement": "A daily rule on a zoned date-time advances the instant by exactly 24 hours per step, so the wall-clock time changes across a DST shift.", "quantifier": "every zone and instant", "why_tests_cant": "all zones", "anchors": ["src/properties/recur.rs: Add<DateTime<Local>>"]}
{"id": "C53", "title": "Component round trip", "statement": "A component (event, to-do, journal, free/busy, timezone, calendar, alarm) whose texts hold no escapable character, whose required texts are non-empty, whose list fields other than comma lists hold at most one entry and which has no x/iana property and no zoned date-time, serialises to a text that parses back to an equal component.", "quantifier": "every such component", "why_tests_cant": "dozens of fields of arbitrary content", "anchors": ["derive/src/component.rs: ical, try_from, from_str", "src/components/*.rs"]}
{"id": "C54", "title": "Two or more children are not serialisable", "statement": "A calendar with two or more events (or an event with an alarm) serialises to a text with a bogus EVENTS: (ALARMS:) property and the text does not parse back.", "quantifier": "every such calendar/event", "why_tests_cant": "universal over components", "anchors": ["derive/src/component.rs: ser_part", "src/ser.rs: field, Vec Serialize", "src/components/valarm.rs: Serialize"]}
{"id": "C55", "title": "Extension properties do not survive serialisation", "statement": "Serialising a component with x_prop (iana_prop) entries writes a single X-PROP (IANA-PROP) line; names and parameters of the entries are lost, so re-parsing never gives back the same map.", "quantifier": "every component with a non-empty extension map", "why_tests_cant": "universal over maps", "anchors": ["derive/src/component.rs: ser_part", "src/ser.rs: BTreeMap Serialize"]}
{"id": "C56", "title": "Repeated properties collapse", "statement": "A list field that is not a comma list (COMMENT, ATTENDEE, ...) with two or more entries serialises to one line without parameters and re-parses as a single entry.", "quantifier": "every such list", "why_tests_cant": "universal over lists", "anchors": ["derive/src/component.rs: ser_part", "src/ser.rs: Vec Serialize"]}
{"id": "C57", "title": "Empty values vanish", "statement": "A property whose text is empty is not written at all: an optional empty text re-parses as absent and a component with an empty required text (e.g. a default event) does not re-parse.", "quantifier": "every component", "why_tests_cant": "universal", "anchors": ["src/ser.rs: field"]}
{"id": "C58", "title": "Alarm text framing", "statement": "A serialised alarm is the serialisation of its Audio/Display/Email content with only the first and last lines replaced by BEGIN:VALARM and END:VALARM.", "quantifier": "every alarm", "why_tests_cant": "all contents, including ones with line feeds", "anchors": ["src/components/valarm.rs: Serialize"]}
{"id": "C59", "title": "The construction macros follow the types of the fields", "statement": "In vcalendar!, vevent!, ... a string, an integer, a float, a variant name, a value, a list or an object given for a field is parsed, converted and wrapped in Some exactly as the type of the field requires; each field named gets the value of its entry, the others their defaults, and the first error met is returned. The exceptions, which do not compile, are: strings for VCalendar.calscale and method, VFreebusy.freebusy, Recur.until, by_day and wkst; objects for VCalendar.freebusy, journals, todo and timezones, and for alarms; negative literals other than lat and lon; values for the fields the macros parse; Option values except for nine fields; unknown or repeated fields.", "quantifier": "every struct, every field, every entry and list of entries", "why_tests_cant": "the expansion depends on tables by field name; tests only compile a few uses", "anchors": ["derive/src/macros.rs: Map, TypedEntry, TypedValue, Type", "derive/src/lib.rs: component!", "src/properties/*: FromStr, From"]}
{"id": "C60", "title": "What a new component holds and writes", "statement": "X::new() and X::default() give empty texts and lists, no optional value, zeros and 1970-01-01T00:00:00 without a zone for every field; such a component serialises, to exactly its BEGIN, date-stamp and END lines, but its text is rejected by its own parser.", "quantifier": "every struct and field", "why_tests_cant": "tests never parse back a default component", "anchors": ["src/components/*.rs: new, Default", "src/properties/date.rs: Default"]}
{"id": "C61", "title": "VAlarm::from names the alarm", "statement": "VAlarm::from(audio|display|email) and valarm!{@kind, ...} give an alarm of that kind whose ACTION is the name of the kind whatever the action given, the other fields as given; it reads back with the same kind. For an alarm built by hand it is the action text, not the kind, that decides the kind read back.", "quantifier": "every alarm content, every list of entries", "why_tests_cant": "universal over contents", "anchors": ["src/components/valarm.rs: From, FromStr", "src/lib.rs: valarm!"]}
{"id": "C62", "title": "VALUE labels", "statement": "The line of a calendar date carries VALUE=DATE and that of a date-time no VALUE; a trigger carries VALUE=DATE-TIME or VALUE=DURATION according to its kind; a list of two dates or more (EXDATE) carries no label even if all are calendar dates.", "quantifier": "every date, trigger and list of dates, every property name", "why_tests_cant": "all values", "anchors": ["src/properties/date.rs: Serialize for Date", "src/properties/trigger.rs: Serialize", "src/ser.rs: Serialize for Vec"]}
{"id": "C63", "title": "What follows a component is ignored", "statement": "If a text reads as a component, the same text followed by anything that is not a continuation of its last line and holds no double quote reads as the same component; in a calendar even the rest of the END:VCALENDAR line is ignored. The double quote matters: an unclosed quote in a parameter runs to the next quote, even one after the component.", "quantifier": "every text that reads as one of the nine components, every following text", "why_tests_cant": "it ranges over every accepted text and every suffix; nom's remaining input is dropped silently", "anchors": ["/repo/derive/src/component.rs: FromStr", "/repo/src/parser/components.rs", "/repo/src/parser/mod.rs: content_line, param"]}
{"id": "C64", "title": "Folding is invisible to the reader", "statement": "Inserting CR LF SPACE anywhere but inside another such marker changes nothing in what FromStr of a component gives, any number of times. Nothing else is a fold: a continuation line that starts with a tab, or follows a bare LF, makes the component fail.", "quantifier": "every text, every cut of it, each of the nine components", "why_tests_cant": "every position of every text", "anchors": ["/repo/src/parser/mod.rs: unfold", "/repo/derive/src/component.rs: FromStr", "/repo/src/parser/components.rs"]}
{"id": "C65", "title": "Line endings", "statement": "Each content line may end in LF or CR LF independently without changing the outcome of FromStr, but BEGIN and END lines must end in CR LF: a text without CR is never read as a component.", "quantifier": "every file made of lines without double quote, every choice of line endings; every text without CR", "why_tests_cant": "exponentially many choices of endings over all files", "anchors": ["/repo/src/parser/mod.rs: content_line", "/repo/src/parser/components.rs: component, vevent, vtimezone, vcalendar"]}
{"id": "C66", "title": "Names are case-sensitive", "statement": "A content line whose name holds a lower-case letter never sets a field of a component, it is kept as extension (x_prop if it starts with X-, iana_prop otherwise); BEGIN, END and component names in lower case are rejected.", "quantifier": "every list of lines a component accepts, every name with a lower-case letter; every text without capitals", "why_tests_cant": "every name with a lower-case letter in every component", "anchors": ["/repo/derive/src/component.rs: TryFrom<Vec<ContentLine>>", "/repo/src/parser/components.rs"]}
{"id": "C67", "title": "An unquoted parameter runs over line ends", "statement": "The value of an unquoted parameter runs to the next ';' or ':' even over line ends: in NAME;P=v followed by a line end and NEXT:w the line NEXT is swallowed into the value of P and w becomes the value of NAME.", "quantifier": "every name, parameter name, value without ';', ':' and double quote, whatever line ends it contains", "why_tests_cant": "every value, including any number of swallowed lines", "anchors": ["/repo/src/parser/mod.rs: param, param_value, content_line"]}
{"id": "C69", "title": "The time zone of the process", "statement": "Parsing any component or calendar from text gives the same result whatever the process's local time zone. Writing a component that holds no UTC/zoned date-time gives the same text in every zone. A zoned date-time is written by the wall clock of the process's zone (with a trailing Z), so two processes write the same text exactly when their offsets at that instant agree. Expanding a recurrence whose start, end and UNTIL are dates or floating date-times gives the same occurrences in every zone; with a zoned start it may not.", "quantifier": "every two local time zones (any offset function and any local-time mapping), every input text, every component, every recurring component and number of calls", "why_tests_cant": "all zones and all inputs; tests run in one zone", "anchors": ["/repo/src/properties/date.rs: DateTime, Date", "/repo/src/parser/properties.rs", "/repo/src/iter.rs", "/repo/src/ser.rs"]}
{"id": "C68", "title": "The text of a single value and FromStr", "statement": "The text that ser::ical gives for a single date-time, period, recurrence rule, class, status, transparency, frequency, weekday, numbered weekday, geo position or request status is accepted by that type's FromStr and gives the same value. For a calendar date (VALUE=DATE:...) and for a trigger (VALUE=...:...) it is always rejected. For a text or URI it comes back exactly when the value has no parameters and none of the characters ; , LF.", "quantifier": "every writable value of each type", "why_tests_cant": "every value of every value type, with an exact condition for texts and URIs", "anchors": ["/repo/src/ser.rs: ical", "/repo/src/properties/*.rs: FromStr"]}
{"id": "C70", "title": "Arithmetic and conversions of dates and date-times", "statement": "Adding a duration to a date-time moves it by exactly that duration or panics when the result is outside the supported years; a calendar date moves by the whole days only (truncated toward zero). (d + t) - d is t without a zone; with a zone the difference is that of the wall clocks, off by the change of the offset. Conversions keep the wall clock; a zone-less date-time converts to a local instant except in a gap (error), and to the earlier one when ambiguous. In a leap second the same holds with that second counted: a duration added or taken away moves by exactly itself, and the result is a time of day, in a leap second only if in that one; a difference on the same day counts it too (on another day it need not). b - a is always -(a - b).", "quantifier": "every date, date-time (leap seconds included), duration and zone", "why_tests_cant": "every date-time, duration and zone, including both ends of the supported range", "anchors": ["/repo/src/properties/date.rs: Add, Sub, From, TryFrom"]}
{"id": "C71", "title": "Order of start/duration pairs", "statement": "The order of StartDur values compares start minus duration (panicking when that is outside the supported range), so of two periods with the same start the longer is the smaller as StartDur and the greater as Period.", "quantifier": "every pair of starts and durations", "why_tests_cant": "every pair", "anchors": ["/repo/src/properties/period.rs: StartDur, Period PartialOrd/Ord"]}
{"id": "C72", "title": "An occurrence carries the rest of its series", "statement": "Iterating from any occurrence that a recurring event, to-do or journal yields gives exactly the rest of the series it came from, with the same end (end, panic or endless search), and every occurrence is the first of its own series.", "quantifier": "every recurring component, every execution of the iterator, every occurrence in it", "why_tests_cant": "every start, rule, exclusion list and position, including unending series", "anchors": ["/repo/src/iter.rs: Recur::next", "/repo/src/iter.rs: Recurrent"]}
{"id": "C75", "title": "Which excluded dates matter", "statement": "EXDATE acts as a set: order and repetition do not change the occurrences, nor do entries the rule never steps to. A calendar date in EXDATE never removes an occurrence that has a time, and a date-time never removes an occurrence that is a calendar date.", "quantifier": "every recurring component and every pair of exclusion lists", "why_tests_cant": "every exclusion list and every execution, including unending series", "anchors": ["/repo/src/iter.rs: Recur::next"]}
{"id": "C73", "title": "What was read from ASCII text can be written again", "statement": "Every value that FromStr of a component accepts from an ASCII text can be serialized: writing it returns Ok (no error, no panic) and the output is ASCII. Without the ASCII condition this fails: an accepted text with accented letters can make the writer panic.", "quantifier": "every ASCII text and each of the nine component readers; every environment that writes floats in ASCII", "why_tests_cant": "every text, of any length and nesting", "anchors": ["/repo/src/ser.rs: field, split", "/repo/derive/src/component.rs: Serialize, FromStr", "/repo/src/parser/components.rs"]}
{"id": "C76", "title": "GEO and request status", "statement": "For every text, GEO is accepted iff it is a float, ';' and a float (what follows is ignored) and holds those two numbers in that order; a request status is accepted iff it is a float, ';', a description without ';' and optionally ';' and any extra data, and holds those; neither reader panics.", "quantifier": "every text, and every environment reading floats", "why_tests_cant": "every text", "anchors": ["/repo/src/parser/descriptive.rs: geo", "/repo/src/parser/misc.rs: rstatus", "/repo/src/properties/geo.rs", "/repo/src/properties/request_status.rs"]}
{"id": "C77", "title": "What the derive macros generate", "statement": "#[derive(Component)] accepts exactly the structs with named fields whose #[component] words are append and ignore, each at most once; an enum or a wrong word is a compile error, a tuple struct makes the macro panic. It gives every field a property name, the field name in capitals with - for _, so distinct fields have distinct, readable property names; an ignored field is written but never read; an Option field keeps the value of a line, a Vec field collects them one by one (or all the values of a line with append), any other field is required and read from the last line with its name; the fields are handled in the order declared. #[derive(Serialize)] writes the parts of a rule under the field name in capitals or the name given by rename. On the structs of the crate the generated try_from, from_str, ical and component are the ones every other property is about.", "quantifier": "every declaration of a struct or enum (any number of fields, names, types and attribute words); every list of content lines, text and value of the generated code of the crate's 12 derived structs", "why_tests_cant": "a test sees the declarations it contains; the rule ranges over all declarations, and the agreement over all inputs of the generated code", "anchors": ["/repo/derive/src/component.rs: impl_macro, Field", "/repo/derive/src/serialize.rs: impl_macro, Field::name", "/repo/derive/src/lib.rs: tyname, is_option, is_vec", "/repo/src/components/*.rs: struct declarations", "/repo/src/properties/recur.rs: Recur"]}
{"id": "C78", "title": "The syntax of the construction macros", "statement": "Between the braces of vcalendar!, vevent!, ... stand entries: key: value with an optional comma after it, or the shorthand key, whose comma is required (also at the end). A value is an expression, entries in braces, or items in brackets separated by commas, a last comma allowed. These token lists and no others are accepted, each in one way; every list of entries can be written, the shorthand only as an entry and not as an item. A second comma, a key that is not an identifier and a missing value make the macro panic, a key followed by anything but : or , is an error: none of these compiles. A call has the value of its entries (C59) and their order does not matter; valarm! is the macro of the kind after the @, audio, display or email, and nothing else.", "quantifier": "every list of tokens, of any length and nesting; every kind of component; every scope", "why_tests_cant": "token lists nest without bound, and a macro call that must not compile cannot be a unit test", "anchors": ["/repo/derive/src/macros.rs: Map::parse, Value::parse, parse_value", "/repo/derive/src/lib.rs: component!", "/repo/src/lib.rs: valarm!"]}
{"id": "C74", "title": "The exact text of a written component", "statement": "Whenever writing a component succeeds, its text after undoing the line folding is exactly: the BEGIN line of its kind; one content line per written field in the documented order (required and present optional fields one line each, each list one line, absent fields none), each made of the property name, its parameters and its value; the children, each with its own BEGIN and END lines; the extension properties; the END line. Nothing else is written. Holds for components whose raw strings contain no line break, with at most one child of each kind and no alarms in it (two or more, and any alarm, are written as one unreadable line, C54).", "quantifier": "every audio, display and email alarm, event, journal, to-do, free-busy, time-zone, standard, daylight and calendar value; every value of every field", "why_tests_cant": "fields hold arbitrary text and lists of any length; a test fixes one component", "anchors": ["/repo/src/ser.rs: ical, fold", "/repo/derive/src/component.rs: impl_macro", "/repo/src/components/*.rs: Serialize"]}
{"id": "C79", "title": "Line breaks inside values", "statement": "A line feed in a text or URI value is written as backslash n, so no value can add a line to the written text: the unfolded text has exactly one line per written field plus the BEGIN and END lines. Only the strings that are written raw (parameter and extension names, a custom CLASS) can, and a custom CLASS with a line feed does inject a property. A carriage return is not escaped: a component with a carriage return in a value is written, but the written text cannot be read back, whichever value it is in.", "quantifier": "every component of every kind, every field, every position of the line feed or carriage return in the value", "why_tests_cant": "injection must be impossible for every string in every field", "anchors": ["/repo/src/ser.rs: escape", "/repo/src/properties/text.rs: Serialize", "/repo/src/properties/uri.rs: Serialize", "/repo/src/properties/class.rs: Serialize", "/repo/src/content_line.rs: ContentLine"]}
{"id": "C80", "title": "The order of the lines does not matter", "statement": "In a file without quotation marks, exchanging two neighbouring content lines whose property names differ, in any component at any depth, does not change what the file is read as: it is accepted with the same value or it was not accepted in either order. Children may likewise be exchanged with children of another kind. Lines of the same name may not: the order of their values, or which of them counts, changes.", "quantifier": "every reader (event, journal, to-do, free-busy, time zone, standard, daylight, alarm, calendar), every quote-free file, every position and depth, any number of exchanges", "why_tests_cant": "there are factorially many orders of the lines of a file and unboundedly many files", "anchors": ["/repo/derive/src/component.rs: impl_macro (TryFrom)", "/repo/src/components/*.rs: TryFrom", "/repo/src/parser/component.rs"]}
{"id": "C81", "title": "What decides the occurrences", "statement": "The occurrences of a component (their number, starts and outcomes) are decided by DTSTART, EXDATE and RRULE (its FREQ, INTERVAL, COUNT and UNTIL) alone, plus DTEND for the ends; two components that agree on these, even of different kinds, yield occurrences one for one with the same dates, also through after(a) and between(a, b). RDATE, DURATION, DUE, STATUS, the BY parts and all other properties have no part in it, and DTEND never decides a start.", "quantifier": "every pair of events, journals and to-dos that agree on these fields, every number of calls", "why_tests_cant": "all other fields range over arbitrary values, and the agreement has to hold for every number of iterator steps", "anchors": ["/repo/src/iter.rs: Recur::next", "/repo/src/components/vevent.rs", "/repo/src/components/vtodo.rs", "/repo/src/components/vjournal.rs"]}
{"id": "C82", "title": "Which error is reported", "statement": "Whatever is wrong with a component, at any depth, reading it from text returns Error::Parser; the specific errors (unknown status, priority out of range, unknown alarm action, bad weekday...) never come out, and Error::Alarm, Key, Weekday, Priority and Serialize are given by no public function at all. Reading a single Status, TimeTransparency or Freq that is none of the known words returns the error of that type with the whole rejected text. A text that is no duration is reported whole if it does not start with P (or -P), otherwise by the digits read before the first unknown unit letter, or as an integer error if the number before a known unit is missing or beyond 64 bits. A macro fails only with a date, parser, integer or duration error. Writing never returns an error.", "quantifier": "every component reader, every text; every value reader and text; every macro call; every component and value written", "why_tests_cant": "the error has to be the stated one for every rejected text, and absent for every written value", "anchors": ["/repo/src/errors.rs: Error", "/repo/src/lib.rs: parse_duration", "/repo/derive/src/component.rs: FromStr", "/repo/src/properties/status.rs: FromStr", "/repo/src/properties/time_transparency.rs: FromStr", "/repo/src/properties/recur.rs: Freq FromStr", "/repo/src/ser.rs"]}
{"id": "C83", "title": "Formatting a date", "statement": "format of DateTime and Date renders text as it is and each directive by the day and time of the wall clock: the year, month, day, day of the year, weekday (numbers and names), hour (24 and 12), minute, second (60 for a leap second), nanoseconds, offset and seconds since 1970 are the true ones; a date-time with a zone and the naive date-time of its wall clock are formatted alike except for the offset and the timestamp, and its timestamp is that of the instant. Rendering panics exactly when the format is malformed (an unknown directive, a final %), asks a floating value for its offset, or asks a date without time for the time. Display is one of the formats. %U and %W count the weeks of the year that begin on Sundays and on Mondays. %G, %g and %V are the year and the week of ISO 8601.", "quantifier": "every date and date-time, floating or zoned, in every zone; every format text made of the modelled directives (no padding modifiers, nor %C %G %g %U %V %W %q %Z %c %r %v %+)", "why_tests_cant": "formats and dates are unbounded; the panics depend on the pair of both", "anchors": ["/repo/src/properties/date.rs: DateTime::format, Date::format, Display"]}
{"id": "C84", "title": "Written dates sort as texts", "statement": "For years 0 to 9999 and whole seconds, the dictionary order of the written dates and date-times is their order (Ord); those that compare equal come by notation (date, floating, zoned), and two are written alike exactly if they compare equal and have the same notation: unlike Ord, which is no order on mixed values, the texts are totally ordered. Outside these years the texts sort differently: every year above 9999 is written before the year 0, and negative years in reverse. Converting a Date into a DateTime keeps the strict order in both directions, and a date is never after a time of its day; taking the day keeps the order, not strictly.", "quantifier": "every pair of dates and date-times, floating or zoned, in every zone", "why_tests_cant": "it compares all pairs of an unbounded set of dates", "anchors": ["/repo/src/properties/date.rs: Display for DateTime, Display for Date, Ord for DateTime, Ord for Date, From<Date> for DateTime, date_naive"]}
{"id": "C85", "title": "A loaded file keeps the form that can be saved", "statement": "Every value loaded from a text in which each parameter could be written without quotes (calendar, event, to-do, journal, free/busy, time zone, alarm, standard, daylight) is tidy: all its texts are on one line, its parameters are sorted and need no quotes, its extension lines have proper names. Saving a tidy value and loading what was saved gives a tidy value again, whatever was lost, so after any number of save-load generations the calendar is still tidy, and its next saving is loadable exactly when it is not crowded and has no extension property after children.", "quantifier": "every text, every value and every number of save-load generations, every zone", "why_tests_cant": "unbounded histories of saves and loads of unbounded files", "anchors": ["/repo/src/lib.rs", "/repo/src/components", "/repo/src/properties", "/repo/src/ser.rs", "/repo/src/parser"]}
{"id": "C86", "title": "Saving and loading again and again", "statement": "What each field of a calendar, event, to-do, journal, free/busy, time zone or alarm is after any number n >= 1 of save-load generations, exactly: required and single texts have been escaped n times (each comma and semicolon costs one more char per generation, a line feed one in all), empty ones are gone, several entries have become one; categories and resources are the pieces between the commas of the first saved line, escaped n-1 times; a custom class is upper-cased and may turn into a standard one; zoned times have moved n times by the offset of the zone at the moment reached, floating times and dates are fixed after the first generation; durations with a fraction are zero, offsets have lost their seconds; numbers, status, transparency and rules (but for a zoned UNTIL) stay; extension properties wrap themselves once per generation; a value with RDATE has no next generation. In a zone with a constant offset other than zero an event with a zoned DTSTAMP, and a calendar that holds one, is unreadable after finitely many generations. A safe value never changes.", "quantifier": "every tidy value, in particular every value loaded from a file without quoted parameters, every number of generations and every zone; geo and request status are followed only if their floats and texts are read back as written", "why_tests_cant": "unbounded histories of saves and loads over unbounded values", "anchors": ["/repo/src/lib.rs", "/repo/src/components", "/repo/src/properties", "/repo/src/ser.rs", "/repo/src/parser"]}
{"id": "C87", "title": "Agreement with the recurrence set of RFC 5545", "statement": "For a rule without BY parts, with a positive interval and not both COUNT and UNTIL, on a date, a floating date-time, or (below monthly) an instant, in whole seconds: every occurrence the iterator gives out is in the recurrence set of RFC 5545 (multiples of the interval from the start, not after UNTIL, the first COUNT of them, minus EXDATE), and every member of that set is given out, up to the last occurrence given out and, if the iterator ends, altogether - provided that the start is not excluded, a monthly rule does not start after the 28th, none of the dates COUNT counts is excluded, no date of the rule falls on the day of UNTIL but after it, and the first date past UNTIL is not excluded. Each proviso is needed: an excluded start is given out; excluded dates do not use up COUNT, so some occurrence is outside the set; monthly from the 31st the set's 31 March is missing and 29 February is not in the set; noon of the last day is given out although UNTIL is at midnight; the last date of the set is lost when the date after UNTIL is excluded. The proviso on UNTIL holds by itself for dates, for an UNTIL at 23:59:59, and for daily or slower rules with UNTIL at the same or a later time of day.", "quantifier": "every event, to-do and journal, every start, rule and exclusion list in the stated class, every number of calls", "why_tests_cant": "unbounded series and all rules against a set defined independently of the iterator", "anchors": ["src/iter.rs: Recur::next", "src/properties/recur.rs: Add"]}
{"id": "C88", "title": "What a file means, end to end", "statement": "For every text and every value: reading the text as a calendar, event, to-do, journal, free/busy, time zone, standard or daylight part or alarm succeeds with that value if and only if the text stands for the value by a definition that mentions no parser: the fold markers CRLF SPACE taken out, BEGIN:NAME CRLF, content lines KEY;NAME=VALUE:VALUE, the children, END:NAME, anything after; each field of the value said by the lines with its RFC name (the last one for required and optional fields, each one for repeated ones, the entries of all of them for lists) according to the grammar of its type - texts with their parameters, existing dates and times, durations, periods, rules, offsets, decimals up to 2^32-1, 255 or 9, fixed vocabularies - and every other line in the extension maps.", "quantifier": "every text and every value of nine types; only the two float values (GEO, RSTATUS code) go through an unspecified float reader", "why_tests_cant": "all texts, both directions", "anchors": ["src/parser", "src/components", "ikal-derive: FromStr / TryFrom<Vec<ContentLine>>", "src/content_line.rs"]}
{"id": "C89", "title": "Saving and loading keeps the schedule, or moves it as a whole", "statement": "Save a component or a calendar and load what was saved, any number of times. Whatever next() shows of an event, journal or to-do before, it shows afterwards - the same starts and ends in the same order and the same last word (end, panic, no return), of all occurrences and of any window after(a) or between(a, b) - provided its start, end, exclusions and UNTIL are plain dates, wall-clock times to the second or, in a zone that is UTC, instants to the second. In a zone of constant offset o, a series in instants with a rule of fixed length and no UNTIL comes back moved as a whole: after n generations its i-th occurrence, with its end, is exactly n times o later, also past exclusions.", "quantifier": "every number of generations, every such component or calendar, every prefix of the series, every offset", "why_tests_cant": "unbounded histories of saving and loading composed with unbounded iteration", "anchors": ["src/ser.rs: Serialize", "src/properties/recur.rs: Recur + Date", "src/iter.rs: Recurrent", "src/properties/date.rs: Date, DateTime"]}
{"id": "C90", "title": "Containers put together from parts saved one by one", "statement": "A calendar with several children, an event with alarms or a time zone with several parts is lost when saved as a whole (C54), but not when put together by hand: save the container without its children, save every child on its own (an event with alarms and a time zone with parts put together in the same way), and place the texts of the children, in any order, just before the END line of the container. The result loads exactly when the container text and every child text load on their own, and then holds exactly the container with the loaded children, by kind and in that order. So every safe calendar, whatever the number of its children and alarms, comes back equal; and when no character is multi-byte, all these texts can be written.", "quantifier": "every container, any number, order and nesting of children, every value that can stand on lines", "why_tests_cant": "the number, order and kinds of the children are unbounded, and the equivalence covers every text of every part", "anchors": ["src/parser/components.rs: vcalendar, vevent, vtimezone, component", "src/components/vcalendar.rs", "src/components/vevent.rs", "src/components/vtimezone.rs", "src/ser.rs: Serialize, field", "derive/src/serialize.rs"]}
{"id": "C91", "title": "Components written into a file by hand", "statement": "Take any text that loads as a calendar and whose END:VCALENDAR line stands only at its end, and any texts that load as components on their own, end with their own END line and hold no double quote. Writing those texts, in any number and order, just before the END line gives a text that loads, as the same calendar with the new components at the end of the list of their kind and nothing else changed. The same holds for alarms written into an event and for STANDARD and DAYLIGHT parts written into a time zone.", "quantifier": "every text that loads (whoever wrote it, however folded), any number, kinds and order of added components", "why_tests_cant": "both the file and the added texts range over all texts the parser accepts", "anchors": ["src/parser/components.rs: vcalendar, vevent, vtimezone, component", "src/parser/mod.rs", "src/content_line.rs", "src/components/vcalendar.rs"]}
{"id": "C92", "title": "A file taken apart and put together again", "statement": "Every text without double quotes that loads as a calendar is a frame - its BEGIN line and own lines before, its END line and what follows after - with the exact texts of its components in between, one after the other, each of which loads on its own as the component the calendar holds. In that frame any other exact component texts, in any number and order and from any source, load as the same calendar with those components and no others. So one event can be taken out of a file or replaced by cutting and pasting its text, the others staying as they are, and the components of a second file can be moved into the first. The same holds for the alarms of an event and the parts of a time zone. With double quotes it fails: a component text can change the meaning of what follows.", "quantifier": "every text without double quotes that loads (whoever wrote it, however folded), every list of component texts put into its frame, every position of an event in the file", "why_tests_cant": "the file, its foldings and the pieces range over all texts the parser accepts", "anchors": ["src/parser/components.rs: vcalendar, vevent, vtimezone, component", "src/parser/mod.rs", "src/content_line.rs", "derive/src/component.rs: from_str"]}
{"id": "C93", "title": "Paging through a series", "statement": "Looking at the occurrences of an event, a journal or a to-do window by window, [a,b), [b,c), ..., with cuts that are all calendar dates or all date-times and none after the next, misses nothing and shows nothing twice: the pages one after the other are exactly what between(a, last cut) shows, followed by what after(last cut) shows they are what after(a) shows, and when the first cut is not after the start they are the whole series. Cuts one day apart, as at() takes the end of its day, are such cuts unless the local clock is set back by a day or more. With cuts of both kinds it fails: an occurrence can be on two pages.", "quantifier": "every component with a start and a rule whose occurrences come in order, every list of ascending cuts, every finite series and every endless one that reaches the last cut", "why_tests_cant": "start, rule, number of pages and cuts are unbounded", "anchors": ["src/iter.rs: between, at, after, Recurrent", "src/properties/date.rs: Date, PartialOrd"]}
{"id": "C94", "title": "Every series comes to an end", "statement": "With a positive interval the occurrences of an event, a journal or a to-do are finitely many: calling next() again and again ends, by None or by a panic, at most one occurrence to the second and none after the first past the end of chrono's calendar; every shorter run shows a beginning of that list. A rule with neither COUNT nor UNTIL never ends by None: going through all its occurrences always panics, at a step of the start or of the end that the calendar or the local clock does not have; for frequencies from SECONDLY to WEEKLY that is exactly a step beyond 31 December 262142. A rule with an UNTIL that is not that late really ends by None. The windows after(a) and between(a,b) end, or panic, as well. With INTERVAL=0 and neither COUNT nor UNTIL the same occurrence comes forever, and after(a) or between(a,b) with a later than the start never return from their first call.", "quantifier": "every component of the three kinds, start, end, rule and exclusions, every process time zone with offsets of less than a day, every number of calls", "why_tests_cant": "the series is too long to be run (up to eight million million occurrences), and the claim that a call never returns cannot be tested", "anchors": ["src/iter.rs: Recur::next, between, after", "src/properties/recur.rs: Add<Date> for Recur"]}
{"id": "C95", "title": "A property line written into a file, or taken out of it", "statement": "A component file without double quotes is its BEGIN line, its own content lines, and the rest (children, END line, what follows); any other lines may be put in the place of its own and are read exactly as those lines say. A line written after the others gives its field its value, adds to the end of a list, or goes to the X- or IANA map, and all other fields and all children stay as they were; the file is refused exactly if that line is not valid for its field. A line written right after BEGIN gives a value to an optional field that had none, adds to the front of a list, and for a required field it does not matter at all, valid or not. Without the lines of a name that is not required, that field is empty and nothing else has changed. Alarms keep their kind, whatever is written after. The same edits inside an event of a calendar file change that event only. NAME:VALUE and an end of line is such a line.", "quantifier": "every text of the nine kinds of components without double quotes, every content line, folded or not, every property name", "why_tests_cant": "it ranges over all files, all edits and all properties, folded in any way; a test edits one file", "anchors": ["src/parser/components.rs: vcalendar, vevent, vtimezone, component", "src/parser/mod.rs", "src/content_line.rs", "derive/src/component.rs: from_part, try_from, from_str", "src/components/*.rs: struct declarations"]}
{"id": "C96", "title": "The whole series in one formula, and what cancelling an occurrence does to it", "statement": "Take the start and the slots after it, each the rule added to the one before (start and end alike), up to and including the first past UNTIL or the last from which a step is possible; leave out those after the start that are excluded. The occurrences are exactly these without the last, in order, with their ends; with COUNT c no more than c. The series ends if COUNT is less than the number of remaining slots, and otherwise as the walk does (UNTIL: an end; no step possible: a panic). Such a walk exists for every rule with an interval of at least 1, its slots are at different times, and nothing else is ever seen from the iterator. So, without COUNT, more exclusions take out the occurrences at those times and no others, the first excepted; but excluding the one slot after the last occurrence loses the last occurrence. With COUNT the later ones move up. An EXDATE line written into an event of a calendar file adds its dates to the exclusions of that event and changes nothing else.", "quantifier": "every event, journal and to-do, every rule and zone, every list of exclusions, every walk of any length; every calendar file without double quotes, every event in it and every EXDATE line", "why_tests_cant": "it ranges over all rules, all exclusion lists and histories of any length, and over all files", "anchors": ["src/iter.rs: Recurrent::next", "src/properties/recur.rs: impl Add for Recur", "src/components/vevent.rs", "src/parser/components.rs"]}
{"id": "C97", "title": "A file cut short is never taken for another file", "statement": "Take any text that is read, and cut it at any point such that no double quote is cut off: what is left is either read as the very same value or refused with an error; it is never read as another value, and it never makes the reader panic. If the text ends with its END line, and that line occurs nowhere before, anything cut off makes it refused; a calendar alone is still read as the same value when only the end of its END line (CRLF, or its LF) is missing. With a double quote in what is cut off another value can be read.", "quantifier": "every text of the nine kinds (calendar, event, to-do, journal, free/busy, timezone, its two parts, alarm) that is read, and every cut point, inside folds and in the middle of lines too", "why_tests_cant": "it ranges over all readable texts and all cut points of each", "anchors": ["src/parser/mod.rs", "src/parser/components.rs", "src/content_line.rs", "derive/src/component.rs"]}
{"id": "C98", "title": "Longer and shorter rules, the same series by another rule, every other occurrence", "statement": "A later UNTIL or a larger COUNT (or none) never changes the occurrences there were: the complete series of the longer rule begins with that of the shorter one. Two rules whose steps are equally long give the same occurrences, to the same end: every week is every seven days, every minute every sixty seconds (for a plain date the two frequencies must both be a day or more, or both less). Every year is every twelve months for anything that does not start or end on 29 February, from which the yearly rule panics. And a rule (of a frequency of fixed length, with no COUNT and nothing excluded) of b times the interval gives exactly every b-th of the occurrences, up to UNTIL; at the end of the calendar it stops short by less than b of them. The last is not so for months from the 31st.", "quantifier": "every event, to-do and journal, every pair of rules, every start, end, exclusions, and (for zoned date-times) time zone", "why_tests_cant": "it compares whole series of unbounded length, for all pairs of rules and all starts", "anchors": ["src/iter.rs", "src/properties/recur.rs"]}
{"id": "C99", "title": "What == says", "statement": "For every value type but those that hold floating-point numbers, == is true exactly of identical values (all fields, parameters and list entries, in order, to the end). Geo, RequestStatus and what holds them are equal exactly when all the fields are the same but for those numbers, which are compared as numbers: 0.0 equals -0.0, NaN equals nothing, not even itself. == is symmetric and transitive everywhere; a component, a calendar or a Component of any kind is equal to itself exactly when none of its numbers is NaN, and one without zeros is equal to no other, so that equal values are written alike. A component that comes back unharmed from being written compares equal to what was written exactly when none of its numbers is NaN, and two such components written alike are one. Equal events, to-dos and journals have the same occurrences, whatever their numbers.", "quantifier": "every pair and triple of values of every type with a derived PartialEq (but Error)", "why_tests_cant": "a comparison is right only if it is for all pairs of values, lists of any length included", "anchors": ["src/components/vevent.rs", "src/components/vtodo.rs", "src/components/vcalendar.rs", "src/components/mod.rs", "src/properties/geo.rs", "src/properties/request_status.rs", "src/properties/date.rs", "src/content_line.rs"]}
