# Formal model of sanpii/ikal in Rocq (Coq 8.16.1)

The English properties are in `properties.jsonl`, the claims in `MANIFEST.json`, the
wrong programs tried against the theorems in `seeded/LOG.jsonl`.

## 1. Trusted base

* **Coq's kernel** (8.16.1), as `coqc` and `coqchk` run it.  `vm_compute` is used on closed terms
  (witnesses of `..._refuted` theorems and of `..._nonvacuous` examples, a few finite tables): the
  virtual machine's conversion is part of that kernel.  No `native_compute`, no plugin.
* **Axioms**: none.  `Print Assumptions` says *Closed under the global context* for every theorem
  listed in `MANIFEST.json`.  (`coqchk -o` over the library also names the seven
  `Coq.ssr.ssrunder.Under_rel.*` constants: they are parameters of the module type inside Coq's own
  ssreflect plugin files, loaded through the standard library; no theorem here depends on them.)
  No functional extensionality, no classical logic, no proof irrelevance, no `Admitted`.
* **The model is the code.**  Nothing checks mechanically that the Gallina text says what the Rust
  text says.  What supports it: one definition per Rust function with file and lines cited; the
  repository's own tests, re-checked on the model at every build: the 40 unit tests that use no file
  (`Conform.v`) and the 74 `.ics` fixtures against their recorded `.out` texts or errors
  (`ConformFiles.v`, written by `conformance/gen.py` from `/repo/tests`); these are tests, not
  proofs, and no property rests on them; the mutants of section 5.
* **The libraries the crate calls** are modelled from their documentation and source as remembered,
  since they are not in the sandbox: nom (`Nom.v`), chrono (`Chrono.v`), `core::str` and integer
  parsing/printing (`Base.v`).  A wrong reading there is a wrong theorem here.  The points that
  matter most are named in the comments: `%Y` on writing is 4 digits with sign outside 0..9999,
  parsing of `%Y%m%d` takes exactly the digits the format asks for, a second of 60 is kept as a leap
  second, `LocalResult::unwrap` panics on none *and* on ambiguous, `TimeDelta` bounds are
  +-i64::MAX milliseconds, `{}` of a `TimeDelta` is `PT..S`, `FixedOffset` takes `+hhmm`.

## 2. What is modelled, and where

Executable Gallina over strings of code points (`str = list Z`, UTF-8 lengths computed), an outcome
monad `Ok | Err | Panic`, and an environment `Env` that the theorems quantify over: the process's
time zone (any function from instants to offsets, any from wall clocks to
none/one/two offsets), the text conversions of `f32`, upper-casing outside ASCII.

| model file | models |
|---|---|
| `Base.v` | `char`, `str`, `BTreeMap` as sorted association lists, `replace`, `split`, `splitn`, `split_at`, `trim_end_matches`, integer `parse`/`Display`, `Ok/Err/Panic` |
| `Env.v` | the environment |
| `Format.v` | `DateTime::format`, `Date::format` and the strftime directives without modifiers; a format with another directive is outside the model (`None`) |
| `Chrono.v` | the chrono calls the crate makes: `NaiveDate`, `NaiveDateTime`, `DateTime<Local>`, `TimeDelta`, `Months`, `with_year`, the three formats, `FixedOffset` |
| `Nom.v` | the nom combinators the crate uses (`tag`, `alt`, `many0`, `opt`, `delimited`, `map_res`, `take_while`, ...) |
| `Types.v` | `src/properties/*.rs`, `src/content_line.rs`, `src/errors.rs`: types, orders, arithmetic, conversions |
| `Ser.v` | `src/ser.rs` (fold, escape, `Serialize` impls) and each type's `Display`/`Serialize` |
| `Parser.v` | `src/parser/{mod,properties,datatype,rrule}.rs`: content lines, unfolding, every property reader, both duration readers |
| `Derive.v` | `derive/src/component.rs`: the generated `TryFrom<Vec<ContentLine>>` and `Serialize`, over a schema of fields |
| `Components.v` | `src/components/*.rs`, `src/parser/components.rs`: the 11 structs, their schemas, `FromStr`, nesting |
| `Iter.v` | `src/iter.rs`: `Recurrent`, `next`, `between`, `at`, `after`; loops take a fuel argument, and the theorems quantify over it (`IFuel` for *every* fuel is a call that never returns) |
| `Generator.v` | `derive/src/{lib,component,serialize}.rs`: the derive macros themselves, from a declaration (as `syn` gives it) to the generated code, and the meaning of that code; the 12 declarations of the crate that derive `Component` or `Serialize`, transcribed |
| `Macros.v` | `derive/src/macros.rs`: the tables by field name, the expansion of a macro call, its typing (`None` = does not compile) and evaluation, `Default` of every struct, `VAlarm::from` |
| `Tokens.v` | `derive/src/macros.rs`: the parsing of the macros' tokens (`Map::parse`, `Value::parse`), the calls `vevent! {..}` and `valarm! {@kind, ..}` |

| `Debug.v` | the `{:#?}` text of every value (derived `Debug`, and `ContentLine`'s own): what the repository's fixtures are compared by |

Specifications, independent of the model's functions: `SpecText` (folding, escaping, octets),
`SpecLine` (content-line grammar), `SpecComp` (how lines determine fields), `SpecFields` (the fields
of each component), `SpecFile` (file grammar), `SpecCal` (Gregorian calendar), `SpecDur`, `SpecIter`
(runs, time), `SpecRound`/`SpecLoss`/`SpecCrowd` (what a component is written as and what comes
back), `SpecMacro`, `SpecGenerator`, `SpecTokens`, `SpecInput`, `SpecZone`, `SpecFatal` (which texts panic), `SpecShuffle` (which files differ only in the order of lines), `SpecFormat` (the pieces of a format, the day of the year and of the week), `SpecTextOrder` (dictionary order), `SpecHistory` (save-load generations), `SpecAfter` (each field after n generations), `SpecRfc` (the recurrence set of RFC 5545), `SpecMeaning` (what a file stands for), `SpecKeep` (schedules that survive saving), `SpecAssemble` (texts put together from saved parts), `SpecAppend` (texts written into a file), `SpecEdit` (one line more or less, field by field), `SpecWhole` (walks, cancelled occurrences), `SpecLonger` (rules compared), `SpecEqual` (equality of numbers and of what holds them), `SpecFinite` (the end of the calendar), `SpecPages` (neighbouring windows), `SpecPieces` (the exact text of one component), `SpecError` (why a text is no duration; the texts of errors), `SpecValue` (which texts every value reader accepts, and as what).  `*Facts.v`, `DateText.v` are lemmas; `Prop*.v` hold the
property theorems, `...Ex.v` and `Cnn_nonvacuous...` the concrete cases that meet their hypotheses.

### Simplifications (also noted at each definition)

* `f32` is an opaque bit pattern with a print function and a partial parse function in `Env`; where a
  theorem needs that printing then parsing is the identity for a given number, that is a hypothesis
  about that number (`safe_geo`, `safe_rs`).
* Errors keep their constructor, and their payload where it is a plain string; nom's error text is
  dropped (`EParser`).
* Shifting a date-time by a zone offset does not check chrono's year range: it matters within a
  day of the years -262143 and 262142.
* `many0` takes as fuel the number of characters left plus one, which cannot run out because a round that consumes nothing is an error, as in nom (`NomFacts.many0_eq`).
* Memory and time are not modelled; recursion depth neither.

* `DateTime<chrono::Local>` is equal to another by its instant, as chrono's `PartialEq`; the maps of parameters
  (`BTreeMap`) are sorted association lists, compared entry by entry (`Equality.v`).

### Not modelled

the escapes of `Debug` for unprintable characters outside ASCII, the texts of nom's, chrono's and std's own errors (the crate's own messages are in `SpecError`), `Deref`/`AsRef` conveniences,
`DateTime::format`/`Date::format` with the directives and modifiers that `Format.v` leaves out, `serde`-like
feature flags, the lexing of Rust and the grammar of its expressions (the tokens of one expression are
one token in `Tokens.v`), `ikal()` in `derive/src/macros.rs` (the path to the crate), and compile errors other than by type and by name.  Concurrency does not occur: the crate has no shared state; its one hidden input is the
process's time zone, which is in `Env`.

## 3. Method per property

| property | files | how |
|---|---|---|
| C01-C03 | PropText, SerFacts | the fold loop by induction on the octets left; the folded text is a list of parts joined by the marker; single-pass unfolding by induction; panics exactly at multiples of 75 that are no char boundary |
| C04, C05 | PropText, PropLine | `replace` chain = one char map, induction on the text; the read-write cycle iterated `n` times |
| C06-C09 | PropLine, LineFacts, NomFacts | soundness and completeness of the line parser for the grammar of `SpecLine`, induction on input length for the parameters and for `many0` |
| C10-C13 | PropComp, DeriveFacts | generated `try_from` is a fold over the lines on a tuple of partial fields: an invariant per field kind (required, optional, repeated, list, child), induction over the lines from the right, for every schema; then each of the 11 structs |
| C14-C17 | PropFile, PropPanic, PropFatal | whole-text grammar, iff, uniqueness; panics traced back to one of the four risky lines; PropFatal: an exact condition (`SpecFatal`) for every reader, every component and every text, both ways |
| C18-C22 | PropDate, PropDateAll, ChronoFacts, DateText | the civil-date algorithm against leap-year rules (era decomposition, `lia`); padded printing/parsing by induction on digits |
| C23-C25 | PropDur, PropDurAll | both duration readers against the grammar; greedy = longest prefix, so the property reader is characterised on every text; the macro reader's digits accumulate |
| C26-C34, C76 | PropRule, PropVocab, PropPeriod, PropList, PropValue | print/parse per type; rules as association lists with last binding; PropValue: for C20, C25, C27, C29-C31, C33, C34 and C76 an iff between each reader's result on *every* text and a grammar of `SpecValue`, so that no theorem's value rests on the model's own readers |
| C35-C37 | PropList, PropMixed | total preorders; equality of the order against identity; witnesses |
| C38-C52 | PropIter, PropTime, PropWindow, IterFacts, TimeFacts | runs as an inductive relation over calls; simulation by `steps`; termination by pigeonhole on strictly increasing starts against the finite EXDATE list; divergence for every fuel; windows by filtering |
| C53, C55-C58 | PropRound, PropLoss, PropOrder, RoundFacts, BackFacts, FieldFacts, LossFacts, AlarmFacts | `x_written`: the lines a component is written as; the text is their folding; reading them back is `x_read`; field by field what returns |
| C54 | PropCrowd, CrowdFacts, JunkFacts | the folded blob of two or more children stops the line reader at `BEGIN:` |
| C59-C61 | PropMacro, PropNew, MacroFacts | case analysis over the (finite) table of structs and fields for arbitrary values; induction over the macro's arguments |
| C77 | PropGenerator, GenFacts | the generated code, run on the model's structs by field name, equals the hand-written schemas: one generic simulation over a schema with type codes, instantiated 11 times; induction over the declared fields for every declaration |
| C78 | PropTokens | the token parser against a mutual grammar (soundness by induction on fuel, completeness by mutual induction on derivations, fuel irrelevance); composed with C59 |
| C62 | PropLabel | from C01 |
| C63-C67 | PropInput | suffix-extension and prefix-locality of every reader; one relation `same` carried through the grammar |
| C68 | PropSingle | from the round trips, plus `VALUE=` not being a date |
| C69 | PropZone | two environments that differ in the zone only; relational proof over schemas; bisimulation of runs |
| C70, C71 | PropArith, PropLeap | nanoseconds since the epoch as the common measure; in a leap second, nanoseconds with that second counted |
| C73 | PropAscii | every parser keeps ASCII; per-schema invariant `plain` (writable, in ASCII) established by every property reader; folding ASCII never panics |
| C72, C75 | PropResume | induction on the run; a bisimulation between components with the same effective exclusions |
| C74, C79 | SpecExact, ExactFacts, UnreadFacts, ExactFields, PropExact | unfolding commutes with every piece of the writer; `X_text` of `SpecExact` is the whole text, one definition per kind; counting LF in it; the line reader stops at a bare CR, so the frame never closes |
| C38–C44, C48–C52, C69, C72, C75 | PropKinds, PropDays, PropTurns (SpecKinds) | the iteration theorems again for `VEvent`, `VJournal` and `VTodo` themselves, in terms of their own fields; exact yearly and monthly steps of zoned date-times |
| C80 | PropShuffle (SpecShuffle) | a reader's result depends only on the lines of each name, in order; swapping commutes with the line grammar (`file_cons`, `lines_sw`), one congruence per schema |
| C81 | PropSame | bisimulation (`akin`) between two iterators over different components |
| C82 | PropError (SpecError) | the duration reader's error as an inductive relation, both ways (induction on the text with the terms read so far); macro errors by induction on the size of the argument through C59; writing by a closure property of every `Serialize` impl |
| C83 | PropFormat (SpecFormat) | the format is cut into pieces by an inductive relation; one piece at a time; the fields through C18 (day of the year, weekday and weeks by induction over consecutive days; ISO weeks by their Thursday) |
| C84 | PropTextOrder (SpecTextOrder) | digit strings of equal length compare as their values; field by field, the date through C18 |
| C85 | PropTidy, PropTidyEx (HistFacts, SpecHistory) | every reader is shown to keep clean lines tidy, every writer to produce clean lines; then induction over the generations with C53/C54 |
| C86 | PropHistory, PropFuture (SpecAfter, HistStep, HistLists) | one step per field from C53/C54's field-by-field reading, one composition lemma per field, induction over the generations; the drift is bounded by the years 0 to 9999 that can be read |
| C87 | PropRfc (SpecRfc) | candidates k intervals after the start are unique and increasing; the k-fold step of the code is the k-th candidate; positions covered by a run (yielded or excluded); pigeonhole for COUNT |
| C88 | PropMeaning (SpecMeaning), PropWired | C15's grammar of components composed with the exact grammars of C20-C34, one equivalence per kind of value; unfolding as a decomposition into parts; PropWired states the value properties C20-C34 at the fields of each component |
| C89 | PropKeep (SpecKeep), PropKeepEx | C86 gives the dates after n generations, which are equal (or all moved by n times the offset); C81 says the schedule fields decide the series; for moved ones, positions of the two series are compared by induction with C42 |
| C90 | PropAssemble (SpecAssemble), PropAssembleEx | a saved tidy value is a `piece`: followed by anything that continues no line, it parses as itself and leaves the rest (C53, C54); a container of pieces parses exactly as its lines and its pieces; the same lemma with no pieces is the container alone |
| C91 | PropAppend (SpecAppend), PropAppendEx | every reading relation of the grammar is local: it keeps its result when what follows is replaced by text without a double quote; the END line has no border, so the place where the parser finds it is the one written; induction over the added texts |
| C92 | PropPieces (SpecPieces), PropPiecesEx | a cut of the unfolded text lifts to a cut of the text; by locality (C91) each item of the grammar is a piece that reads alone, and the header reads before any quote-free text; C15 both ways |
| C93 | PropPages (SpecPages), PropPagesEx | by C51 a window is a filter of the series; being before a cut is monotone in the cut and once out stays out (C50), so the filters of neighbouring windows tile; induction on the cuts |
| C94 | PropFinite (SpecFinite), PropFiniteEx | every step moves forward by a second at least and stays in the calendar, so the run of C44 with that many calls is complete; the call after a run (C42's positions) says why it ended; windows through C51; zero interval by induction on the fuel |
| C95 | PropEdit (SpecEdit), PropEditEx | lines are local pieces of the text (as the components of C92), the frame is the text before and after them; each kind of field depends only on the lines with its name (C11), so one line more or a name less is a lemma per kind, and each struct is their conjunction |
| C96 | PropWhole, PropCancel (SpecWhole), PropWholeEx | induction on the walk for one call of the loop (it skips excluded slots), induction on its length for the calls; uniqueness by C44, cancelling by filter algebra on the formula, the file by C95 |
| C97 | PropCut, PropCutEx | the unfolded text of a prefix is a prefix of the unfolded text but for a dangling end of line; lines and children are local (C91), so the same lines and children are found up to the END line, or none; the crash grammar (C16) excludes panics in the same way; the END line by its only place |
| C98 | SpecLonger, PropLonger, PropLongerEx | the whole series in one formula (C96): a walk of the longer rule extends that of the shorter; equal steps give equal walks (the panics by C94, the dates by C43); b steps of the one rule are one of the other, and an index in the walk is a number of steps |
| C99 | Equality (model), SpecEqual, PropEqual, PropAlike, PropEqualEx | one boolean function per derived `PartialEq`, field by field; each decides its relation (by cases, induction over the lists; bit patterns by arithmetic); identity of the rest; then C53 for what comes back, C81 for the occurrences |
| - | PropWitness | for each of the ten kinds of component a safe value (C53), and a text that is read as a tidy one, twice saved and loaded and changed by it (C10-C13, C55-C57, C85, C86) |

Where the property one would wish for is false of the code, `properties.jsonl` says exactly
what holds and what fails; the failing half is a universal negative or a theorem named `..._refuted`.

## 4. What the proofs show to be wrong in the code

1. Values are escaped on writing and never unescaped on reading, so `,` and `;` grow a backslash per cycle (C05); backslash itself is not escaped, so two different texts are written alike (C04).
2. Continuation lines may have 76 octets (C02); folding panics when a cut falls inside a multi-byte character (C03).
3. `RECURID`/`RSTATUS` are written and read instead of `RECURRENCE-ID`/`REQUEST-STATUS` (C13).
4. Panics on input: RRULE without FREQ, PERIOD without `/`, over-long durations, alarm without ACTION (C16, C17).
5. UTC date-times are written in local time with a `Z` (C22): the text depends on the machine (C69).
6. The macro/trigger duration reader accumulates digits (`PT1H30M` = 1 h + 130 min) (C25).
7. Dates order is not transitive across kinds (C36); `StartDur` and `Period` order oppositely (C71); equality and order disagree (C35, C37).
8. BY parts and WKST are ignored (C48); monthly steps drift (C49); Feb 29 yearly panics before the first item (C50); zero interval can hang (C44); the last occurrence can be lost (C41); a rule with neither COUNT nor UNTIL ends in a panic at the end of chrono's calendar, and with INTERVAL=0 `after`/`between` never return (C94).
9. Two or more children of a kind, or any alarm, give text that does not parse (C54); extensions turn into one `X-PROP` line (C55), which after a child makes the text unreadable; repeated properties collapse (C56); RDATE never reads back (C31); a default component does not read back (C60).
10. Files with LF line ends and tab folds are rejected (C64, C65); an unquoted parameter swallows lines (C67).
11. `ser::ical` of a date or trigger is not accepted by its `FromStr` (C68); the difference of zoned date-times is that of wall clocks (C70).

## 5. Wrong programs

`seeded/LOG.jsonl` has one line per edit of the model: the definition, the edit, the claim
broken, the theorems that no longer prove, those tightened when nothing failed.  Mutants are built in a scratch copy
with every file downstream of the edit; a survivor is either an edit that does not break the claim (said so) or led to a tighter theorem.
