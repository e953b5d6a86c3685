# Design of the formal model of PLC-lang/StandardFunctions

This file is written before the proofs and kept current.  The properties are in
`properties.jsonl` (C01…), the model and proofs in `rocq/theories`, the claim
status in `MANIFEST.json`, the mutation log in `seeded/LOG.jsonl`.

## 1. Approach

* The model is a set of small, total, computable Gallina functions, one per Rust
  (or ST) function, over `Z`, `bool`, `list Z`, `option` and records.  Every
  definition carries a comment with the file and lines it models.
* Rust integers are `Z` values with explicit casts (`wrap`), each arithmetic
  operation that can overflow is modelled with its overflow behaviour.
* `outcome A := Ok a | Panic | Ub`.  `Panic` is a Rust panic (`unwrap`, `expect`,
  `panic!`, `unreachable!`, checked arithmetic); `Ub` is an access outside the
  memory handed in by the caller.
* What the source leaves open is a parameter of the model and every theorem
  quantifies over it:
  * `profile` = `Debug | Release` (overflow checks on/off),
  * `endian`  = `LittleEndian | BigEndian` host,
  * `chrono`  = a record with the two behaviours that changed between chrono
    0.4.x releases (no `Cargo.lock` is pinned): whether a leap second is accepted
    on every second or only on :59, and whether `timestamp_nanos` handles the
    last partial second above `i64::MIN`.
* `&mut self` methods return the new record.  Stateful blocks have
  `step : state -> call -> outcome state`; histories are lists of calls and the
  theorems are about `run` over *every* history (induction).
* Memory: a source pointer is the list of units from the pointer to the end of
  its allocation (no NUL found = `Ub`); a destination pointer is the list of
  units it may write; the functions return the destination after the call, so
  NUL termination and untouched tails are observable.  Source and destination
  are separate allocations; ModelOverlap.v models them again on one memory, where they may overlap (C104).
* Floats: `spec_float` of the Coq standard library (axiom free, computable),
  `prec/emax` = 24/128 and 53/1024.  Bit patterns are `Z`.
* Files: `Model*.v` definitions only; `Spec*.v` the independent vocabulary used
  in the statements; `Proof*.v` lemmas; `Properties*.v` only
  `Theorem … exact lemma.`, non-vacuity `Example`s and `Print Assumptions`.

A property that is false of the faithful model is stated in full in
`properties.jsonl`, refuted by a theorem `…_refuted` with a concrete witness, and
accompanied by the exact characterisation of what the code does instead
(suffix `_partial` when it is the strongest true part of the property).

## 2. Per property: what is modelled and how it is proved

| id | modelled code | proof |
|----|----|----|
| C01, C02 | `Signal`, `R_TRIG`, `F_TRIG` | induction over the CLK history; output list = pointwise edge specification |
| C03, C04 | `SR`, `RS` | induction over the input history from the right; spec = last dominating call |
| C05 | `ctu` for every type | invariant over histories: CV = min(max, edges since reset) |
| C06 | `ctd` | dual invariant |
| C07 | `ctud` | refinement to a clamped integer specification, range invariant |
| C08 | `ctu`, `ctd`, `ctud` | **false**: refuted (R freezes the edge memory); exact edge memory rule is C05–C07 |
| C09, C10 | `TON`, `TOF`, `TimerParams` | state invariant relating the record to the history; full functional characterisation |
| C11 | `TP` | invariant of a running pulse; unbounded suffix |
| C12 | `TP` | **false**: refuted; exact panic condition proved for all histories |
| C13 | `TP` | **false**: refuted; exact (re)start condition proved |
| C14 | all timers | invariant |
| C15 | all timers | **false**: refuted; exact behaviour (never expires, ET = PT) proved |
| C16, C17 | `MAX/MIN/LIMIT` | list induction; case analysis |
| C18 | float variants on `spec_float` | induction, order lemmas for `SFcompare` |
| C19–C21 | shifts/rotates with `profile` | bit extensionality (`Z.testbit`); C20 **false**: refuted |
| C22, C23 | endianness with host parameter | byte list model; both **false** on some hosts: refuted, exact law proved |
| C24 | `is_valid_bcd` | induction over nibbles; equivalence with "is the BCD encoding of a numeral" |
| C25 | float classification on bit patterns | bit arithmetic |
| C26–C29, C32, C33 | chrono civil calendar (dependency model) + all CONCAT/SPLIT | calendar spec by successor function; algorithm proved equal to it for all days |
| C30, C31 | `concat_tod`, casts | **false**: refuted (leap-second milliseconds; `as u32` aliasing), exact result proved |
| C34, C35 | chrono `Duration`/`DateTime` arithmetic | exactness of (secs, nanos) arithmetic |
| C36, C37 | `checked_mul`/`checked_div` | arithmetic; C37 **false** above 2^63: refuted, exact rule proved |
| C38, C39 | `Duration::{mul,div}_{f32,f64}` on `spec_float`, three generations of `from_secs_f` | sign symmetry for all inputs; C39 **false**: refuted by computation, true up to sharp limits: the seconds of a duration are within half a nanosecond (half an ulp of the quotient and of the sum) |
| C40–C48 | UTF-8/UTF-16 codecs, all string functions | codec round trip and self-synchronisation by induction; list algebra; C41/C42 **false** for MID at LEN+1, C44 **false** in release: refuted, exact rule proved |
| C49–C51 | `compare` | lexicographic order theory; C51 **false**: refuted |
| C52–C54 | string conversion | codec composition; C53, C54 **false**: refuted, exact law proved |
| C55–C58 | decimal formatting, radix parsing | positional notation as an inductive relation, induction over the digits; C57, C58 **false**: refuted, exact rule proved |
| C59–C61 | time/date formatting | texts as relations in the specification, shown functional both ways; C60 **false**: refuted, exact rule proved |
| C62 | `{:.6}`/`{:.6e}` formatting | exact decimal arithmetic against real numbers; **false** up to -1e73: refuted (81 byte buffer), exact condition proved |
| C63 | `TIME()` | clock reading as parameter |
| C78 | decimal float parsing (`f64/f32::from_str`) | grammar as a relation, equivalence by induction; correct rounding by Flocq's division theorem |
| C79 | composition of C62 and C78 | nearest-neighbour argument on real numbers |
| C80 | ST `X_TO_WSTRING` wrappers | all texts are ASCII, on which the codecs are the identity |
| C81 | zeroed memory decoded by either representation of `Option<Instant>`, then ModelTimers.v | induction over call histories; refuted for the newer representation by computed witnesses |
| C64–C67 | ST conversion functions (deep embedding of the ST subset they use, table of 276 functions) | table look-ups by computation, then wrap arithmetic for all values; C66, C67 **false** at the stated points: refuted, exact rule proved |
| C68 | `ROUND`, `TRUNC`, REAL→int, LREAL→TIME | exact arithmetic on `spec_float`, real-number specification |
| C69 | ST `EXPT` wrappers | **false**: refuted (exponent narrowed to DINT), exact rule proved |
| C74 | `powi` loop, `EXPT__*__DINT` | induction over the binary digits of the exponent, all intermediates exact |
| C75 | ST date/time conversions, `DATE_AND_TIME_TO_*` | table look-ups, wrap arithmetic, C28's calendar lemmas |
| C76, C77 | int→float, float↔float (`sitofp`, `fpext`, `fptrunc`) | Flocq correctness of `binary_normalize`, uniqueness of representation |
| C70 | ModelLayout.v: C layout rule, Rust parameter structs, ST declarations, a byte memory | induction over struct fields (disjoint, in order); the table cases by computation; memory outside the instance unchanged and every declared variable read back |
| C82 | ModelLink.v: tables of the 525 ST FUNCTION declarations and the 367 exported Rust symbols | interface relation in SpecLink.v, decided by a checker proved sound for arbitrary tables, then computed; **false** for SPLIT_LDT and for the calling convention of some symbols: refuted, exact exceptions proved |
| C83 | same tables, instance names, type classes | as C82; **false** for the listed types: refuted, exact exceptions proved |
| C84 | ST bodies that call another function, over arbitrary values and an arbitrary library | symbolic evaluation, case analysis on the results of the library |
| C85 | ModelWrap.v: ST LEFT, RIGHT, MID, INSERT, DELETE, REPLACE, CONCAT, STRING_TO_WSTRING, WSTRING_TO_STRING with their 2048 character result | sizes of texts in both encodings, from C41, C43, C47, C52; **false** for INSERT, REPLACE, CONCAT, WSTRING_TO_STRING: refuted, exact condition proved |
| C86 | STRING_EQUAL, STRING_LESS, STRING_GREATER with parameters by value | composition with C49; **false** beyond 80 units: refuted, exact rule proved |
| C87 | the REF_TO conversions between CHAR and STRING, memory behind the character as parameter | list reasoning; CHAR_TO_STRING **false**: refuted, exact condition proved |
| C88 | ModelLib.v: table of the 336 exported functions that are no function blocks, called by name with typed values; libm as platform parameter | per family one common code for arguments in the common range; also `…_every_type`, `…_every_name` theorems that carry C16, C17, C19, C21, C22, C24, C26, C34, C36 over to every exported name (PropertiesLib.v), and `…_by_name` theorems for C18, C23, C25, C27–C30, C32, C33, C37, C40–C49, C52, C53, C56–C63, C68, C71, C73, C74, C78 (PropertiesName.v) |
| C89 | EXPT of REAL and LREAL with a real exponent, power function abstract | conversion exactness (C77); **false** for EXPT__REAL__LREAL: refuted, exact for REAL-valued exponents |
| C90 | the table of exported functions (ModelLib.v) with the types of ModelLink.v; numeric functions | typing lemma per calling pattern and function; float results valid by Flocq; membership in the abort list and abort witnesses by computation |
| C91 | ModelMachine.v: programs as lists of calls on instances in a byte memory, all 31 blocks by name, inputs and outputs at ST's offsets, fields at Rust's | a call reads and writes only its instance (frame and locality by induction over the fields); independence by induction over the program; a simulation between bytes and the records of ModelCounters/ModelTimers/ModelFB by induction over the history |
| C92 | the counters of ModelMachine.v | induction over the history from the end: one call at two types gives the same state unless one CV leaves the other's range |
| C73 | same functions as C38 | `SpecFloat` operations shown equal to Flocq's, rounding errors composed; exactness (C73_exact) because every intermediate value is representable, the fractions of a second checked one by one (512 for LREAL, 8 for REAL); C73_rounded_once: the same chain with the last step shown to round halves to even (SpecOnce.v) |
| C72 | `CONCAT_DT` vs its parts | **false**: refuted (leap-second milliseconds), exact law proved |
| C71 | `SQRT` | IEEE square root of `SpecFloat`, Flocq correctness theorem (Reals axioms) |
| C93 | CONCAT_DATE, CONCAT_TOD, CONCAT_DT, SPLIT_DATE, SPLIT_DT, SUB_DATE_DATE, MAX/MIN by name | the day count is strictly monotone in the lexicographic order of (year, month, day), which is total; `SUB_DATE_DATE` by iterating the calendar's successor |
| C94 | DATE/TOD/DT_TO_STRING and _WSTRING with LT_STR, EQ_STR, LE_STR | C61 gives the shape of the texts; fixed-width decimals sort by value, fractions of different length by splitting the longer one |
| C95 | all exported string functions, called by name (ModelLib) | the symbol table is filtered by parameter types; each calling pattern has one lemma, each body reads its inputs through the slice up to the NUL; the encoders' effect is a prefix of the destination (induction over the characters) |
| C96 | ModelString (all functions), on arbitrary memory | the functions are list operations on the items of `decode`; `encode` of items is characterised by the first unpaired surrogate (ProofAny.v); every memory is classified by `C96_memory_cases` |
| C97 | ModelTimers | shift: every helper commutes with shifting the start time; polls: a call that repeats IN leaves edge memory and start time unchanged, and these determine all later outputs given the reachable-state invariant `between` (ProofPoll.v) |
| C98 | ModelFB, ModelCounters, ModelTimers | simulation by induction over the history (ProofPoll.v); TOF/TON from C09 and C10 |
| C99 | ModelLink `st_decls` (all declarations of the ST files) | decision over the table, prefix of names (ProofConv.v) |
| C100 | ModelLink `st_decls` | decision over the table and all pairs of types; exact list of conversions without reverse |
| C101 | `library` entries of LN … EXPT over `p_math`, the unspecified methods of f32/f64 (ModelLib.v) | two independent tables, one of the Rust methods and one of the IEC functions, with domain and real function (SpecMath.v); for each name the library entry selects the method with the same real function; ATAN2 as the angle of a point, EXPT through exact widening and nearest narrowing of the exponent; a correctly rounding library is constructed to show that the assumption can hold |
| C102 | `ModelApi.api`, `call`: all declared functions with implicit conversions, ModelST, ModelLib | abstract interpretation (`a_invoke`) proved sound by induction on fuel and expressions, its results for all declarations and instances by computation; C90 for exported code; witnesses by computation |
| C103 | conversions as in C64–C77; MUL/DIV of TIME by REAL/LREAL as in C73, through their exported names | nearest integers, integer parts and nearest representable numbers are monotone; duration→float seconds: within a second by monotone rounding, across seconds by showing round(round(s)+1) ≤ round(s+1) (absorption in large binades); float seconds→duration: floor/nearest of a monotone value |
| C104 | the string functions once more, on one memory with positions as pointers; characters are decoded one by one between the writes (ModelOverlap.v) | frame lemmas for overwriting a range; a copy is right by induction on the text if the write position never overtakes the read position; the chains of two and three parts from it, then equality with the C41–C47 models on the split memory; witnesses by evaluation for the refuted overlaps |
| C105 | TON, TOF, TP as in C09–C13, presets free in every call | TON and TOF: from the formulas of C09, C10 by relating the two histories; TP: induction on the calls since the start, the start time is kept until IN falls after the preset of that call |
| C106 | SpecCircuit.v: the wiring as a condition on the histories of the blocks' calls (the model of each block is unchanged); toggle and the calls through R_TRIG as small programs | C09/C10 closed forms of TON and TOF, induction over the cycles |
| C107 | as C106; `iec_ctu_cv` is the IEC reading | C05 closed form on the edges that R_TRIG reports; witness for the refutation |
| C108 | ModelGen.v: the generator as the list of functions it writes; calls by the interpreter of ModelST.v | tables compared by computation; truncation and rounding by the lemmas of C68 |
| C109 | EXPT_DINT of ModelArith/ModelFloat (the square-and-multiply loop behind powi), reached through st_call | Sign by induction on the loop; monotonicity of rounded product and quotient carried through the loop (SpecMono); accuracy by an invariant that counts the roundings accumulated in square and result, with the no-overflow and no-underflow side conditions propagated backwards from the final power (ProofPow.v) |
| C110 | `call` (ModelApi.v): generic resolution, ST bodies and exported Rust functions; string functions of ModelString.v and ModelWrap.v | execution of the call symbolically up to the Rust function (ProofCall.v), then the specifications behind C40–C54 and C85 (ProofCall4.v) |
| C111 | `call` on the conversions of extra_functions.st; ModelExtra.v | the nested bodies are executed in stages (ProofCall2.v, ProofCall3.v), then C55–C62, C78–C80 (ProofCall5.v) |
| C112 | expressions `Call f [...]` over variables, `value_of (api P)` | evaluation is compositional (`value_call`), then list algebra (ProofCall4.v, ProofCall7.v, ProofCall8.v) |
| C113 | statements `SPLIT_x(v, y1, ...)` executed with `value_of (api P)` in an environment of variables; results seen through the environment | one lemma for the assignment of outputs (`split_general`), one per split function; CONCAT via the generic call (ProofProg.v to ProofProg3.v) |
| C114 | calls `ADD`, `SUB`, `CONCAT_DATE`, `DAY_OF_WEEK` by generic name, the calendar of SpecDate.v (`next_day`) | day numbers advance with `next_day`; induction over the days of a month, the months of a year, the years of a cycle (ProofProg4.v) |
| C115 | The interpreter of ModelApi.v (calls by generic name, nested expressions, coercions of the declared types), with the Rust functions of ModelLib.v behind it. | Each call reduces to the function on values (ProofExpr2: boolean tables over the declarations, checked by computation); the laws on values by number theory (residues, powers of two, quotients), order theory (greatest and least elements are unique, permutations) and C16 to C25, C36, C67, C99, composed by `value_1` … `value_3`. |
| C116 | expressions of REAL, LREAL, integers and TIME (ModelApi.v `value_in`), instances in Rust (ModelLib.v) and in Structured Text (ModelST.v) | one rule per function for arbitrary argument expressions (`number`, `nearest`, `whole` in SpecNum.v); root of a rounded square by an error analysis with Flocq's midpoints (ProofSqr.v); laws as compositions of the rules (ProofNum4.v) |
| C117 | SpecCascade.v: the circuits as small programs over the model's calls of CTU, CTD, R_TRIG, F_TRIG, SR and RS | invariants of the cascade (counted edges = n * carries + count, edge memory of the first counter) by induction over the cycles |
| C118 | SpecBlink.v: the wiring as a condition on the histories of the blocks' calls, the latch as a small program | C09/C10 closed forms of TON and TOF, induction over the cycles; equivalences for watchdog, retriggerable pulse and latch; R_TRIG before TP (SpecPulse.v) from the closed form of C105 and the abort condition of C12 |
| C119 | Expressions (ModelApi.value_of) over the whole API as called from ST; reference of about 100 lines in SpecTerm.v | Induction over the derivation of `means` with one lemma per line of the reference (ProofTerm*.v), each reduced to the call-level theorems of C110-C116; uniqueness because values determine meanings (unique UTF decoding, unique numerals, unique decimal and scientific notation of a float, unique nearest float proved with Flocq's Rnd_NE_pt); completeness by induction over typing derivations, with totality of every line |
| C120 | `value_of`, `dispatch`, `invoke` of ModelApi.v with all declarations of ModelLink.v; the typing rules and sequences of assignments are in SpecType.v | mutual induction on typing derivations; per call the effect analysis of ProofApi2.v, computed once for every declared function and every assignment of its type variables (`types_checked`), with implicit conversions of arguments (`converted`); uniqueness from `resolve`; programs by induction on their length and on the number of cycles |
| C121 | Statements: assignments of expressions (`executes`, C120), SPLIT calls (ProofSplit.v) and calls of block instances in memory (`st_call`, `st_read`, C91); execution returns the log of block calls with the variables at each | invariant over the execution: the memory is that of the logged calls, all of them typed; run of an instance's own calls by locality (C91), per block type by the history theorems (C01–C11, C81) |
| C122 | `value_in` and `executes` over the whole library (ModelApi) | SpecSize.v gives the rules of the length bounds (`text_at_most`, `count_of`, `bounded_program`) over declared variables. ProofSize.v: each string function for all DINT positions and lengths (from C41, C43, C44, C85, C110), mutual induction over the rules, then over programs. Two theorems show that the unobvious bounds are reached and that above 2048 units the call is undefined. |
| C123 | ModelApi.v (call, value_in), ModelMachine.v, SpecProgram.v (executes_all): programs over values, texts and blocks; what is known of variables: SpecWhole.v | ProofWhole.v: bounds of the texts written for values and totality of reading; ProofWhole2.v: induction over the rules for expressions; ProofWhole3.v: invariant over the statements (variables as known, memory reached by the logged calls), locality of instances (C91) and the theorems of the blocks |
| C124 | ModelApi.v (call, value_in), ModelMachine.v, SpecProgram.v (executes_all); the reference: SpecRefine.v over SpecTerm.v | ProofRefine.v: expressions and conversions; ProofRefine2.v and ProofRefine3.v: outputs of each block from its history; ProofRefine4.v: forward simulation by induction over the program, relating the memory to the logged histories; ProofRefine5.v: progress of typed programs |
| C125 | Programs of ModelApi.v/SpecProgram.v, reference of SpecTerm.v/SpecRefine.v, bounded expressions `formed` in SpecComplete.v | Mutual induction over `formed`: every function either has a result as described or fails by a rule (ProofComplete.v; the roundings of real numbers exist and stay between representable bounds, ProofCompleteR.v); induction over the program with the invariant of C124 (ProofComplete2.v) |

## 3. Trusted base

* The Coq 8.16.1 kernel (`vm_compute` included).
* `Print Assumptions` is run on every property theorem. Its output is
  "Closed under the global context" (no axiom at all) for every theorem except
  those listed in §3.1.
* The transcription of the code into Gallina (reviewable through the citations).
* Dependencies not contained in /repo are modelled from their documented
  behaviour: Rust core/std (integer casts, shifts, `str::from_utf8`,
  `decode_utf16`, `encode_utf8/16`, `fmt` of integers and floats,
  `from_str_radix`, `Duration`), `chrono` 0.4 (calendar, timestamps, durations,
  `Display`), and for ST code the RuSTy/LLVM assignment semantics (sign/zero
  extension, truncation, `fptosi`).

### 3.1 Theorems that use standard-library axioms

Theorems about real-number values of floats are stated with the standard library's
`Reals` (through Flocq 4.1.0, which adds no axiom of its own). The axioms, all of the
Coq standard library: `ClassicalDedekindReals.sig_not_dec`,
`ClassicalDedekindReals.sig_forall_dec`,
`FunctionalExtensionality.functional_extensionality_dep`, `Classical_Prop.classic`.
As printed by `Print Assumptions`:

* `sig_forall_dec`, `sig_not_dec`, `classic`, `functional_extensionality_dep`: `C67_abs_float_partial`, `C68_real_to_int`, `C68_lreal_to_time`, `C68_round`, `C71_sqrt_nearest`, `C71_sqrt_nan`, `C71_sqrt_monotone`, `C71_sqrt_exact_on_squares`, `C74_expt_exact`, `C74_expt_reciprocal`, `C76_int_to_float`, `C76_int_float_int`, `C76_time_to_lreal`, `C77_real_to_lreal`, `C77_lreal_to_real`, `C77_round_trip`, `C38_divide_by_infinity`, `C39_neutral_factor_partial`, `C73_mul_accuracy`, `C73_div_accuracy`, `C73_exact`, `C73_overflow`, `C62_real_to_string`, `C78_string_to_lreal`, `C78_string_to_real`, `C79_lreal_round_trip`, `C79_real_round_trip`, `C80_real`, `C89_lreal_real`, `C89_real_lreal_partial`, `C89_real_lreal_refuted`, `C90_result_of_type_or_listed_abort`, `C101_functions`, `C101_atan2`, `C101_expt`, `C101_expt_lreal_real`, `C101_expt_real_lreal`, `C78_by_name`, `C71_by_name`, `C68_round_by_name`, `C74_by_name`, `C73_by_name`, `C102_result_of_type_or_listed`, `C102_generic_calls`, `C102_any_number_of_arguments`, `C103_int_to_real`, `C103_time_to_lreal`, `C103_real_to_int`, `C103_lreal_to_time`, `C103_round`, `C103_real_to_lreal`, `C103_lreal_to_real`, `C103_product`, `C103_quotient`, `C108_whole_partial`, `C109_sign`, `C109_opposite`, `C109_monotone`, `C109_accuracy`, `C109_accuracy_negative`, `C111_reals`, `C111_parse_reals`, `C111_real_round_trip`, `C111_lreal_round_trip`, `C115_int_through_real`, `C115_real_through_lreal`, `C116_abs`, `C116_round`, `C116_to_integer`, `C116_of_integer`, `C116_through_real`, `C116_widen`, `C116_narrow`, `C116_widen_narrow`, `C116_sqrt`, `C116_sqrt_ordered`, `C116_power`, `C116_square_root`, `C116_root_square`, `C116_select`, `C116_max_nested`, `C116_limit`, `C116_time_to_lreal`, `C116_lreal_to_time`, `C116_time_through_lreal`, `C116_times`, `C116_mul_div`, `C119_value`, `C119_aborts`, `C119_unique`, `C119_rounding_unique`, `C119_complete`, `C120_value_of_type`, `C120_never_fails`, `C120_unique_type`, `C120_programs`, `C120_cycles`, `C121_goes_on`, `C121_cycles`, `C121_instances`, `C121_up_counter`, `C121_down_counter`, `C121_rising_edge`, `C121_bistable`, `C121_timer`, `C121_on_delay`, `C121_up_down_counter`, `C121_falling_edge`, `C121_off_delay`, `C121_pulse`, `C123_value`, `C123_goes_on`, `C123_cycles`, `C123_instances`, `C123_up_counter`, `C123_down_counter`, `C123_up_down_counter`, `C123_rising_edge`, `C123_falling_edge`, `C123_bistable`, `C123_timer`, `C123_on_delay`, `C123_off_delay`, `C123_pulse`, `C124_refines`, `C124_stops`, `C124_unique`, `C124_complete`, `C125_expression`, `C125_complete`, `C73_rounded_once`, `C73_in_expressions`
* `sig_forall_dec`, `functional_extensionality_dep`: `C68_trunc`, `C68_nearest_unique`, `C69_exponent_refuted`, `C62_lreal_to_string_partial`, `C62_lreal_to_string_aborts`, `C80_lreal`, `C62_reals_by_name`, `C103_trunc`, `C108_real_to_int_partial`, `C116_variable`, `C116_trunc`

### 3.2 Check of the model against the project's own tests

The transcription is checked against what the authors observed when running the code:
`Conformance.v` contains 546 of the integration tests in /repo/tests (as ST statements over the
whole-library dispatcher of `ModelApi.v`, with implicit conversions, generic resolution and
`should_panic`), `ConformanceFB.v` all 31 tests of counters, timers, edges and bistables (as calls
on byte memory, `ModelMachine.v`), `ConformanceUnit.v` the 102 unit tests inside /repo/src. Every
assertion evaluates to true in the model (`vm_compute`). These are tests of the model, not proofs.
Six unit tests are themselves undefined behaviour and the model says so: five pass a literal without
NUL to GT, LE or NE (string_functions.rs:1419, 1473, 1490, 1507, 1514), one lets TIME_TO_STRING_EXT form
slices that leave the buffer (extra_functions.rs:464). Not transcribed:

* programs using what is not in /repo: the operators `**`, `+`, `-`, `<>`, AND/OR of comparisons,
  SEL, MUX, MOVE, and EXPT on integer literals (operand promotion by the compiler);
* elementary functions (a parameter of the model), assertions that are inequalities;
* date_time_numeric_functions_tests.rs:115 and :290 (a TIME literal beyond 64 bits, cut by the
  compiler); string_conversion_tests.rs:246 and :288 (CHAR_TO_STRING reads behind its parameter, which
  the model calls undefined).

## 4. Not modelled

* libm (`LN LOG EXP SIN COS TAN ASIN ACOS ATAN ATAN2 EXPT` with real exponent): the table of
  ModelLib.v names the method and format each wrapper calls; the method itself is a parameter of the
  platform.
* Panic unwinding across `extern "C"`, thread interleavings (no shared state in
  the library). What the linker does beyond matching names, and what a call with the wrong
  calling convention does (C82 records which symbols have it).
* The build script build.rs and the mock clocks test_time_helpers.rs, which are compiled only for tests.
* RuSTy's built-in operators (`ADD`, `SUB`, `MUL`, `DIV` of numbers, `SEL`, `MUX`, ...): they are
  not in /repo.

## 5. Findings

Behaviours of the modelled code that contradict a property a user would expect. Each is a
theorem `…_refuted` unless marked otherwise.

* C08: while R (or LD) is TRUE the counter does not update its edge memory, so a count input
  that rises during reset can be counted (or missed) afterwards.
* C12: `TP` aborts when a fresh instance is called with IN = FALSE, and in a second call with
  IN = FALSE after IN fell with Q = FALSE.
* C13: if IN falls during a pulse, the next rising edge after the pulse starts no pulse.
  Together with C12 this makes the usual pair of an R_TRIG and a TP unusable: one pulse, none at the next edge,
  then an abort two cycles later (C118_second_pulse).
* C15: with a negative PT the timers never expire and ET becomes PT.
* C20: shift distances of at least the width: panic in debug, distance modulo width in release.
* C22, C23: `TO_LITTLE_ENDIAN`/`TO_BIG_ENDIAN` depend on the host.
* C30, C72: `CONCAT_TOD` accepts 1000..1999 ms (leap second); in the last second of a day
  `CONCAT_DT` then loses a day against `CONCAT_DATE` + `CONCAT_TOD`.
* C31: LINT/ULINT arguments of the CONCAT functions are taken modulo 2^32.
* C37: `MUL`/`DIV` of TIME with a ULINT ≥ 2^63 abort although the result is representable.
* C39: TIME × 1.0 is not the identity: for REAL from 15.625 ms, for LREAL from 97 days on a
  nanosecond can be lost or gained, and the largest TIME aborts (LREAL). With older releases of
  Rust's std already `T#1ns * 1.0 = 0` (REAL).
* C66: bit types to BOOL test only the lowest bit.
* C67: ABS of the smallest integer is negative; ABS(-0.0) is -0.0 (example in C67). No ABS
  instance exists for unsigned types although the generic is declared for ANY_NUM.
* C68: float to integer conversion outside the target range is LLVM poison (modelled `Ub`).
* C69: EXPT with UDINT/LINT/ULINT exponent uses the exponent modulo 2^32.
* C41, C42: MID rejects position LEN+1 even for length 0, so MID(s, 0, LEN(s)+1) and MID("", 0, 1)
  abort while RIGHT(s, 0) and LEFT("", 0) give the empty string.
* C44: in release builds DELETE and REPLACE with a negative length and a start position large
  enough wrap around and duplicate text: DELETE('hello', -1, 3) = 'heello'.
* C47: CONCAT with no arguments writes nothing, not even a terminator (proved, not a refutation).
* C51: WSTRING comparison orders by UTF-16 words, so U+FF5E sorts after U+1F600.
* C53: STRING_TO_WSTRING_EXT writes no terminator; stale destination contents stay visible.
* C54: CHAR values from 128 on do not survive CHAR -> WCHAR -> CHAR (they become 0xC2 or 0xC3).
* C56 (proved, not a refutation): the sign stands after the radix prefix: '16#-FF' is accepted and
  '-16#FF' aborts, contrary to the IEC literal syntax.
* C57: the integer to string functions write no terminator; stale destination contents stay visible.
* C58: WSTRING_TO_DINT goes through LINT and wraps ('2147483648' gives -2147483648) where
  STRING_TO_DINT aborts. WSTRING_TO_LINT/DINT/REAL/LREAL overrun an 81-byte temporary when the text
  has more than 80 bytes.
* C60: TIME_TO_STRING(0) is the empty text; negative times are shown as an unsigned 32-bit number of
  days and the time of day, -1 ns as '23h59m59s999ms999us999ns'.
* C70 (proved, not a refutation): with the older 24-byte `Option<Instant>` the start time ends 7
  bytes behind `__BUFFER__`, in the tail padding of the instance.
* C81: newer compilers represent `None` by an impossible nanosecond count, so a timer in zeroed memory
  is a timer started when the clock was at zero: TON has Q at the first call with IN, the first rising
  edge of TP gives no pulse, TOF can have Q although IN was never set.
* C62: LREAL_TO_STRING of a number up to -1e73 aborts: the switch to scientific notation tests
  `floor(x) < 1e14` without the absolute value, and the decimal text overflows 81 bytes.
* C82: SPLIT_LDT__INT, UINT, DINT, UDINT, LINT, ULINT have an ST body but are marked `{external}`;
  no Rust symbol exists, so a program that calls them does not link. The shift, rotate and endianness
  functions are exported without `extern "C"`. `REAL_TO_STRING_EXT` is exported but not declared.
* C83: no code for SHL/SHR/ROL/ROR/IS_VALID_BCD of BOOL; CONCAT_DATE, CONCAT_DT, CONCAT_LDT and the
  SPLIT functions for SINT and USINT; ABS of unsigned types; MAX/MIN/LIMIT of STRING and WSTRING;
  endianness functions for one-byte types, TIME, LTIME and strings.
* C85: INSERT, REPLACE, CONCAT (and the release-build DELETE with a negative length) write beyond their
  2048-character result when the combined text is longer; WSTRING_TO_STRING does when the UTF-8 form
  has more than 2048 bytes (683 words can be enough).
* C86: the functions behind `=`, `<`, `>` on strings take their arguments by value as STRING, 80
  characters: longer strings that differ later compare equal.
* C87: CHAR_TO_STRING and WCHAR_TO_WSTRING copy 80 units starting at a one-unit variable; the result is
  the one-character string only if a zero follows in memory.
* C89: EXPT__REAL__LREAL rounds its exponent to REAL first, so EXPT(-1.0, 16777217.0) is the power
  16777216.
* C95: TIME_TO_STRING_EXT continues at the first NUL of its destination instead of at the end of what it
  has written.  Over an old text the result is a mixture ("1dzzzzzzzz2h"); a destination without a NUL in
  the window aborts.  The wrapper TIME_TO_STRING passes a fresh result variable.
* C97: an additional call of an idle TP with IN = FALSE aborts (consequence of C12).
* C100: DT_TO_LINT and LDT_TO_LINT have no reverse (ULINT_TO_DT exists, as do LINT_TO_DATE, LINT_TO_TOD and
  LINT_TO_TIME); BOOL converts to all integer types, but only DINT and LINT convert to BOOL.
* C99: LIMIT names its bounds MIN and MAX (IEC 61131-3: MN and MX); SIN, COS and TAN name their input `rad`
  (IN).  Calls with the standard's parameter names do not compile.
* Calls of library functions by a program (C102): of the 371 declared functions without string parameters 52 can abort
  and 26 are undefined for some arguments; the others always return. The aborting ones include everyday arithmetic
  (`ADD_TIME`, `SUB_DT_DT`, …) and every composition of a date or time of day from its parts; a PLC program cannot
  catch the abort.
* String functions in place (C104): `INSERT` of 'xy' into 'abcd' after one character with the base as destination yields 'axyxyx';
  `REPLACE` in place by a longer text repeats part of the replacement; replacing 'éa' by 'x' in place in a STRING makes the
  code decode bytes that are no longer UTF-8 (undefined behaviour); `CONCAT('xy', s)` into `s` yields 'xyxy'. Nothing in
  the API rules these calls out.
* C105: if PT of a `TP` is raised after its pulse has ended, Q becomes TRUE again without an edge of IN, even while IN is
  FALSE (the start time is only cleared when IN falls in a call after the pulse).
* C107: an `R_TRIG` in front of `CU` does not repair C08 completely.  It removes the extra counts, but an edge in the
  first call after a reset is lost if the last counting call before the reset had an edge, too (input 1, 0 with `R`, 1:
  `CV` is 0 instead of 1), because a reset call does not sample `CU`.
* C108: utils/code_gen.py no longer produces iec61131-st/num_conversion.st: the 16 functions from
  REAL and LREAL to integers there call ROUND, the generator writes a plain assignment, which
  truncates. Running it again would silently turn `LREAL_TO_DINT(2.75) = 3` into 2.
* The difference of two dates more than 106751 days (292 years) apart is not a TIME, although both are DATEs: `SUB`
  aborts. The representable dates span 584 years, so e.g. every pair of dates 400 years apart has this (C114_cycle).
* A CTU that is reset by its own Q (PV := n) divides its input by n only if the input is FALSE for at least two cycles between pulses: the reset call does not sample CU (C08), so an edge in the second cycle after the completing one is lost. Fed with the fastest pulses it divides by n + 1 (C117_fast).
* `MID(s, 0, 1)` aborts on an empty text although `LEFT(s, 0)` is the empty text: MID requires a position within the text, so the law "MID from the first position is LEFT" fails exactly there (C42_mid_is_left_refuted).
