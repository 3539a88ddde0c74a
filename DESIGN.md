# Formal model of mvdparser in Rocq

Subject: the Rust crate `mvdparser` 0.18.0 in `/repo` (read as text, never built or run).
Everything is in `rocq/theories`:

| directory | content |
|-----------|---------|
| `Model/` | the code, function by function, each definition with file and lines; no proofs |
| `Spec/` | what the functions should compute, written without the model's helpers |
| `Proofs/` | lemmas and proofs |
| `Properties/` | the theorems of `properties.jsonl`, one file per group, each with an `Example` that meets its hypotheses and a `Print Assumptions` |

## Trusted base

* The Coq 8.16.1 kernel (and `coqchk`).
* The axioms `Print Assumptions` lists under each theorem in `Properties/*.v`.  Theorems
  without floating point list none ("Closed under the global context").  Theorems about
  durations, pings and team pings use Flocq's real-number semantics of IEEE 754 and
  therefore the axioms of `Coq.Reals` (`ClassicalDedekindReals.sig_forall_dec`,
  `ClassicalDedekindReals.sig_not_dec`, `FunctionalExtensionality.functional_extensionality_dep`)
  and, where stated, `Classical_Prop.classic`.  Flocq has no axioms of its own.
* That the model says what the code does (this file, the comments in `Model/`).

No axioms of our own, no `Admitted`, no functors, no plugins.

## What is modelled

All of `/repo/src`: every public function of `lib.rs` (and of its `all` module) and every
private function they call, and `{:?}` and `{:#?}` of the types they return (`Model/Debug.v`, `Model/Pretty.v`; derived, except
`Debug for Print`).  Left out: derived `Clone`, the unused struct `frame::SliceInfo`
(frame.rs:69-74), `#[cfg(test)]` code, `benches/`.

| modelled as | what |
|---|---|
| `byte` / `list byte` | `u8`, `&[u8]`, `Vec<u8>` |
| `list byte` (UTF-8) | `str`, `String` |
| `N`, `Z` with explicit checks | fixed-width integers; see "arithmetic" |
| `M A` = `Ret`/`Panic`/`OutOfFuel` | code that may panic; loops have fuel and `OutOfFuel` is proved unreachable (C01); C82 states the loops without fuel |
| `result A` = `Ok`/`Err msg` | `anyhow::Result`, `io::Result`; the error is its text |
| association list | `HashMap`; theorems look values up, never rely on the list order |
| `spec_float` | `f32`, `f64` (Coq's IEEE 754 reference), round to nearest even |
| `N` nanoseconds | `std::time::Duration` |
| `Z` seconds since 1970 | `chrono::DateTime<Utc>` |

**Arithmetic.**  `usize` is 64 bits.  Operations that can overflow on some input are
modelled with the overflow-check profile as a parameter (`checked`: panic in debug builds,
wrap in release builds): the `u32` millisecond total, the `u16` ping sum, the `u8` flag
counters and colour counts, the `i32` scores, the team sums, and all of ktxstats.rs/block.rs.
Sums of slice indices that stay below twice the slice length are plain additions.
`Model/Width.v` has every such sum with wrapping or checks, for a `usize` of any width: C75
proves it equal to the rest of the model on 64 bits, and states what differs on 32 bits.

**Parameters (`Model/Env.v`).**  Crates whose source is not available are fields of one
record `env`; theorems quantify over it, and state the needed contract as a hypothesis when
there is one: `quake_text` (`to_unicode`, `to_utf8`, `unicode::sort`), `quake_clientinfo`,
`quake_serverinfo`, `ktxstats` (JSON), chrono's date parser, `str::to_lowercase`, and the
iteration order of `HashMap`s (any permutation, and for the colour counts any permutation
for each team).  `bstr` searches, UTF-8 validation,
`trim_end`, `split_once`, `sort_by`, `dedup`, `f64::from_str`, `Duration::from_secs_*`,
`i32::from_str`, `Cursor` are modelled by definitions.  `Cursor::read_exact` has two
behaviours after a short read depending on the std version; both are covered (C43).

**Assumed about std and not proved**: `sort_by` is a stable sort; `find`/`rfind` return
the first/last occurrence; `f64::from_str` is correctly rounded,
except that it does not look at the digits of an exponent behind a value of 65536 or more
(`core::num::dec2flt`; modelled, and the difference is the subject of C50);
the wording of `Utf8Error`; the formats of `{:?}`; `Duration::from_secs_f32/f64`
round to the nearest nanosecond, ties to even, and panic on negative, NaN, infinite or
>= 2^64 s (std since 1.63); memory allocation does not fail; slices are shorter than 2^63.
That the definitions standing for std do what is said here (search, slices, text, order, maps,
integers) is C80; that std does it is assumed.

**Validation.**  `Properties/UnitTests.v` evaluates the committed model on the inputs of the crate's
unit tests that need no demo file, and `Properties/DemoFiles.v` on excerpts of two of the demo files
(the first 1280 bytes of a duel, 1016 bytes around the spawn command of a 2on2), and checks the results
those tests expect.  `Properties/DemoFrames.v` does so for scores, pings, statistics, a match date and the player
lists of two demos, with the frames of five demo files that matter for them; that the other frames do not is
C79 and C70, and a script selected the frames.  The 2on2 has five team kills by unnamed killers.  `Properties/DemoTimes.v` checks the durations of the free-for-all, with the
stretches between the marks replaced by empty frames that last as long (C92).  Apart from that, an edited copy of the model was extracted to OCaml outside this repository and
run once on the seven demo files in `/repo/tests/files`; the output was compared by reading
with the expectations in the crate's unit tests, and no difference was noticed.  This is a
sanity check, not evidence about the committed model as such.  That copy differed from it:
`N`, `Z` and `nat` were native 63-bit integers, the two 2^64 bounds were 2^62-1, the length
test in `read_exact` was rewritten to a faster form, `length`, `len` and `skipn` were native
code, and the external crates were stand-ins (so results that need them, such as JSON players
and converted names, were not checked).  The rest of the copied model files is the committed text.

## Specifications (`Spec/`)

* `Spec/Mvd.v`: encoder of frames (time byte, type byte, optional 4-byte target mask, length,
  body) and of print, ping, score messages; `demo = encode frames ++ rest`; the leading prints
  of a body; collapsing of runs.
* `Spec/Occ.v`: occurrence of a byte string, first and last occurrence, by concatenation.
* `Spec/Messages.v`, `Spec/Score.v`, `Spec/Pings.v`, `Spec/Times.v`: messages that open a frame,
  scores, ping averages and durations as sums over lists of events.
* `Spec/Texts.v`, `Spec/Clientlist.v`: delimited texts, client records, client lists.
* `Spec/Stats.v`: encoder of chains of hidden demoinfo blocks.
* `Spec/Obituary.v`, `Spec/Flags.v`: the phrases of deaths and flag deeds, who does what to whom.
* `Spec/Utf8.v`: UTF-8 by encoding scalar values; offsets inside a character.
* `Spec/Dates.v`: calendar, seconds since the epoch, date texts, time zones.
* `Spec/Order.v`, `Spec/Teams.v`: dictionary order, stable sorting, lists of players and teams.
* `Spec/Builds.v`: pairs of builds; a relation between the outcomes of all public functions.
* `Spec/Join.v`: tables with the same rows, sums of two tables, bodies of frames, what an obituary
  is worth.
* `Spec/Userinfo.v`: the search for client records, as an inductive relation.
* `Spec/Lax.v`: chains of blocks as a build without overflow checks sees them.
* `Spec/Clock.v`: the time until an offset on any bytes.
* `Spec/Panics.v`: truncated demos, and what it means to panic in certain ways only.
* `Spec/Recording.v`: a whole demo written by a server, and what should be found in it.
* `Spec/Faults.v`: where a byte string stops being UTF-8, and the messages that say so.
* `Spec/Codes.v`, `Spec/Literal.v`: record encodings and code tables; texts of numbers and the
  reals they stand for.
* `Spec/Wrap.v`: sums that may leave the range of their type.
* `Spec/Jams.v`: statistics that end too early, obituaries that need the client list.
* `Spec/Shuffles.v`: players in another order.
* `Spec/Strings.v`: results and library values whose strings are UTF-8.
* `Spec/Shown.v`: the texts `{:?}` writes.
* `Spec/Width.v`: targets with 64-bit and 32-bit `usize`.
* `Spec/Summary.v`: who plays and who watches; the notice of a vote that stops the match.
* `Spec/Splice.v`: two demos in one file.
* `Spec/Thin.v`: demos without some of their frames.
* `Spec/Rename.v`: demos with renamed or renumbered players.
* `Spec/Loops.v`: the rounds of every `while` loop as rules, and what it means for a loop to end.
* `Spec/Copy.v`: small demos that hold one result each.
* `Spec/Sources.v`: the same players and teams up to ping, one to one in any order.
* `Spec/Uses.v`: the thirteen parts of the environment, and what it means that a function uses just some of them.
* `Spec/Chat.v`: a chat message, the texts that are searched for in a whole demo, and where a message may stand.
* `Spec/Transfer.v`: a text that occurs once, or only in the first part of a file.
* `Spec/Wait.v`: a frame without a body.
* `Spec/Stretch.v`: frames between two others that hold no mark of a time.
* `Spec/Damage.v`: demos that differ in a number of changed, lost or added frames, or in given ones.
* `Spec/Names.v`: names, with spaces or without, that hold no obituary phrase.
* `Spec/Retell.v`: demos whose list of prints holds every obituary once for each time it was printed.
* `Spec/FlagTale.v`: frames whose flag messages are all in the list of prints, and texts put together
  from their halves.
* `Spec/Tables.v`: a recording into which given tables of scores, flag events and pings are written.
* `Spec/Merge.v`: demos in which several players are given one name, and the tables that result.
* `Spec/TeamMerge.v`: players whose teams are given other names, or several teams one name.
* `Spec/Columns.v`: teams of paired players field by field; the same people with another appearance.
* `Spec/Climb.v`: a player with more points, and the lists of players and teams before and after.
* `Spec/Standing.v`: the same names and scores, in any order.
* `Spec/Pretty.v`: the indented lines `{:#?}` writes.
* `Spec/Work.v`: the costs of the rounds of a loop, added up.
* `Spec/Library.v`: parts of lists, offsets between characters, maps with a key put: what std promises.
* IEEE rounding in `Spec/Times.v` and `Spec/Literal.v` is Flocq's `round radix2 (FLT_exp ..) ZnearestE`.

## Properties

"Refuted" means: the natural statement is false of the code; a theorem `..._refuted`
exhibits an input, and the statement that does hold is proved beside it.

| id | modelled and proved how |
|----|---|
| C01 | `OutOfFuel` unreachable for every entry point: decreasing measure of every loop |
| C02 | induction over frames and over messages; equality with the spec of the encoder |
| C03 | invariant of the walk on arbitrary bytes |
| C04 | decomposition lemma data = encode fs ++ rest (exists, unique), case analysis of the rest |
| C05 | refuted (truncated last frame panics); proved: exact condition for return |
| C06 | frame walk with early exit = sum over the frames starting before the marker |
| C07 | Flocq: rounding error and monotonicity of the two roundings and of nanoseconds |
| C08 | monotone conversion; refuted in general (marker after the end marker) |
| C09 | case analysis; decimal parser vs. Flocq rounding; refuted for negative durations (panic) |
| C10 | induction over the block chain |
| C11 | `not found` iff no occurrence; refuted never-panics; exact conditions for small offsets (all data: C59) |
| C12 | loop = spec of ping records; float truncation = integer division (sums of any size: C68) |
| C13 | phrase tables checked by computation + lemma on occurrences across names without spaces; refuted for names such as `cratered` |
| C14 | fold over events = sum per name (sums of any size: C68) |
| C15 | spec of nearby score updates vs. loop |
| C16 | exact condition on names: an occurrence of a phrase ends with a line end, so it lies in the name or is the phrase at the end |
| C17 | refuted (second message in a frame is dropped, counters wrap at 256); proved for one message per frame |
| C18 | exact for >= 1280 bytes; refuted never-panics (shorter data) |
| C19 | exact for < 1024 and >= 1280 bytes; refuted in between |
| C20 | direct, via occurrences |
| C21 | induction over the records |
| C22 | invariant of the loop; refuted never-panics |
| C23 | direct; numbers are exact for up to 256 records, then wrap |
| C24 | under the contract of `unicode::sort` (permutation; equal names adjacent) |
| C25 | direct |
| C26 | permutation and sortedness; under <= 256 clients |
| C27 | refuted for ties with different teams; proved without ties |
| C28 | algebra of the comparison |
| C29 | direct; refuted for negative pings |
| C30 | case analysis |
| C31 | grouping = filter per name; permutation; sortedness |
| C32 | Flocq; exact for sums below 2^23 (other sums: C68) |
| C33 | maximum of counts for every iteration order; counts below 256 (other counts: C68) |
| C34 | refuted (case-insensitive ties, colour ties); proved without ties |
| C35 | case analysis |
| C36 | direct |
| C37 | table by computation; numeric forms by computation over digits; refuted for malformed offsets |
| C38 | under chrono's contract; refuted never-panics (multi-byte character at the cut) |
| C39 | direct; decimal printing |
| C40 | decomposition lemma on concatenations |
| C41 | both walks related frame by frame |
| C42 | profiles compared under the size bound; inputs with different outcomes exhibited |
| C43 | walkers do not depend on the flag |
| C44 | direct, via occurrences |
| C45 | direct |
| C46, C47, C49 | direct, by inversion of the readers |
| C48 | case analysis on the 256 bytes and on the declared codes |
| C51 | the scan stops exactly at the first place where no character starts |
| C52 | direct |
| C50 | inversion of the literal parser; Flocq's correctness of division and rounding; magnitudes of numbers with a large exponent |
| C53 | tables as sums over events; sums over a concatenation; refuted for an anonymous team kill at the joint |
| C54 | the same sums under a permutation; refuted for anonymous team kills |
| C55 | the walkers see the bodies only |
| C56 | exchange of sums over names and over events |
| C57 | division lemmas on the averages; refuted when the 16-bit sum wraps |
| C58 | the loop follows an inductive search relation step by step; the relation is decided |
| C59 | one round of the loop with wrapping offsets; induction over the rounds |
| C60 | the walk with a truncated last frame, overflow included; case analysis |
| C61 | a predicate over the result monad that is closed under binding, folding and walking |
| C62 | the exact results of the walkers and of the client search, by cases on the split of the data |
| C63 | composition: each frame of the recording conveys its news to each reader; the marks are located by bytes that occur in them only at their start |
| C64 | a first occurrence that ends inside the data is still the first after appending; invariants of the client search and of the frame walk; the exceptions are refuted by example |
| C65 | lengths of the pieces results are made of: messages, blocks, NUL-delimited stretches and frames do not overlap; the search window bounds the clients; both bounds on texts are reached by examples |
| C66 | invariants of the folds: sums are checked or wrapped, conversions truncate; from the exact ping tables (C12) |
| C67 | both sides reduce to the same client list (C22, C26); the grouping is a partition whatever the sums do |
| C68 | the invariants of C12, C14 and C31 to C33 with sums kept modulo 2^16, 2^32 and 2^8; two roundings of single precision bounded with Flocq |
| C69 | each panic condition is matched with the loop step that meets it; inputs without it are shown to return |
| C70 | the search loops are shown to commute with a change of the bytes before and after the stretch they look at |
| C71 | follows from the decision procedure of C19 and the panic conditions of C62 |
| C72 | the groups of a rearranged list are a permutation of the groups; sums, means and counts do not depend on the order (C68) |
| C73 | a text cut in front of a byte that is no continuation byte leaves two texts, and no text begins with one; then by the readings of C13 and C17 and one lemma per function |
| C74 | the formatter is unfolded into the described texts; each description is a prefix code (what follows a number is no digit, what is between quotes can be read back), so texts determine values |
| C75 | the model with an explicit width of `usize` and every offset sum checked or wrapping; simulation against the main model, loop by loop; on 32 bits "terminates" (C01) is refuted: a 6-byte file makes `demo_duration` of a release build run forever |
| C76 | the remaining public functions on the encoder of C63: for every recording, player lists, dates, durations, server, players, teams and the vote that stops a match are what was encoded |
| C77 | occurrences and frame offsets under concatenation; the rest from C60, C64 and C70; refuted: durations of the parts do not add up |
| C78 | the lemmas behind C23, C29, C31, C32, C33, C39 and C68, stated for a single value |
| C79 | by the readings of C02, C12, C14 and C17; refuted for unnamed team killers |
| C80 | from the lemmas about the definitions of `Model/Base.v` and `Model/Env.v` every other proof uses |
| C81 | every table is determined by a list of entries (C14, C17, C12, C68); injective maps commute with sums per key; refuted for maps that give two players one name |
| C82 | each `while` loop as a relation between rounds, without fuel; the fuelled loop of the model is its only outcome |
| C83 | costs of rounds added up along the loops of C82; a frame is at least two bytes longer than its body, a client at least eight bytes from the next, a block at least 18 |
| C84 | results printed with `{:#?}`: lines and indentation |
| C85 | results of arbitrary data meet the conditions under which encoded demos are read back (C02, C10, C18, C21, C36); for the statistics that is refuted and a condition given |
| C86 | match dates of one zone sort as texts in the order of the times; across zones the clocks must differ by the distance of the zones; every time of the years 0000 to 9999 is reached by exactly one date per zone |
| C87 | if the statistics list the players of the demo, pings up to d, then players() and players_from_parsing() agree place by place, and the teams agree in name, colour, score and in ping up to d |
| C88 | the exact set of libraries, hash map orders and build settings that each of 33 functions depends on; is_valid() and prints() depend on none |
| C89 | a chat message put between two frames leaves every result except prints() alone if it contains none of the eight searched texts; with them it forges a pause, a match end, bots or statistics, and an innocent one can hide an unnamed team killer |
| C90 | from the decision of C19 and occurrences under concatenation; the text that ends a demo overlaps itself in one byte, which gives the one exception; refuted for a missing middle |
| C91 | a frame without a body put between two frames leaves every result except the durations alone; demo, countdown and match become longer by its time, or stay, depending on which side of the marks it stands, with the rounding bounded |
| C92 | a stretch of frames that holds no mark, nor part of one, can be exchanged for any other that lasts as long without changing the durations; not so if it holds or starts a mark |
| C93 | k changed, lost or added frames change the frags of at most 3k players, each by at most 3k, with the same clients; of at most 2k players if all killers are named; both bounds are reached by one frame; a changed client list can do more |
| C94 | frames taken out and put in change only the prints they contain, the flag rows and (killers named) frag rows of the names in their own tables, and (at most eight frames with pings) the pings of the players they tell; the three conditions are needed |
| C95 | cases on where a phrase can begin in an obituary: in a name, across its end, in the phrase; the possible overlaps of all pairs of phrases checked by computation; the condition on the first name is exact; for the second name exact per phrase, the case of a reading with the names swapped being excluded by counting letters |
| C96 | error of single precision below 2^14 s and 2^13 s; demos that only wait, built symbolically, for the refutation beyond |
| C97 | the medium prints of the list are the obituaries of the frames (induction over frames and runs), then C14; refuted for repeated obituaries and for two in a frame |
| C98 | flag events counted from the list of prints: the texts the frames announce are the high-level entries of prints() with second halves put to their first |
| C99 | the tables of scores, flag events and pings can be anything, independently of each other and of all else in the recording: `tables_as_written`, `tables_apart`, `tables_of_players` (Properties/Tables.v) |
| C100 | players of one name share one row: `frags_merged`, `flags_merged`; not so for unnamed team killers and for pings: `mates_merged_refuted`, `pings_merged_refuted` (Properties/Merge.v) |
| C101 | what a change of the team names of the players does to the teams: groups by the new name are unions of groups by the old one, scores add up, the rounding inequalities of the averages are added up; scores of players do not change under injective renamings (the same killer is charged) |
| C102 | each field of a team as a function of that field of its members: two lists of players paired place by place give teams paired by name; single-precision means are monotone because every rounding step is |
| C103 | one more player, in the statistics or among the clients of a recording: insertion sort puts the new row in place and leaves the others as they were; other teams by `player_leaves` |
| C104 | the descriptions used by the other properties fix the results: rows, readings, tables and error texts have one solution; lists of teams have one unless two colours are worn equally often or two names differ only in case (refuted otherwise) |
| C105 | when one player has more points, that player's row moves up past zero or more others and nothing else in the list changes; the team has as many points more, the other teams are equal (the colour of a team of two may change: refuted) |
| C106 | sorted lists with the same scores and names up to order have them at the same places (uniqueness of the sorted list of ranks); tables on any bytes have one row per name (invariant of the loops that fill them) |
