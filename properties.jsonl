{"id": "C01", "title": "R_TRIG reports exactly the rising edges", "statement": "Driving a fresh R_TRIG instance with any sequence of CLK values, Q after call k is TRUE iff CLK is TRUE in call k and was FALSE in call k-1 (before the first call CLK counts as FALSE).", "quantifier": "every finite sequence of CLK values", "why_tests_cant": "Call histories have unbounded length; a test runs one finite script of inputs.", "anchors": ["src/flanks.rs:R_TRIG", "src/utils.rs:Signal::rising_edge"]}
{"id": "C02", "title": "F_TRIG reports exactly the falling edges", "statement": "Driving a fresh F_TRIG instance with any sequence of CLK values, Q after call k is TRUE iff CLK is FALSE in call k and was TRUE in call k-1; the very first call never reports an edge.", "quantifier": "every finite sequence of CLK values", "why_tests_cant": "Call histories have unbounded length; a test runs one finite script of inputs.", "anchors": ["src/flanks.rs:F_TRIG", "src/utils.rs:Signal::falling_edge"]}
{"id": "C03", "title": "SR is a set-dominant latch", "statement": "For any history of (SET1, RESET) calls, Q1 is TRUE iff in the most recent call in which at least one input was TRUE, SET1 was TRUE; with no such call Q1 keeps its initial value.", "quantifier": "every finite sequence of (SET1, RESET) pairs and both initial values of Q1", "why_tests_cant": "Call histories have unbounded length; a test runs one finite script of inputs.", "anchors": ["src/bistable_functionblocks.rs:SR"]}
{"id": "C04", "title": "RS is a reset-dominant latch", "statement": "For any history of (SET, RESET1) calls, Q1 is TRUE iff in the most recent call in which at least one input was TRUE, RESET1 was FALSE; with no such call Q1 keeps its initial value.", "quantifier": "every finite sequence of (SET, RESET1) pairs and both initial values of Q1", "why_tests_cant": "Call histories have unbounded length; a test runs one finite script of inputs.", "anchors": ["src/bistable_functionblocks.rs:RS"]}
{"id": "C05", "title": "CTU counts edges since the last reset, saturating", "statement": "After any call history on a fresh CTU of any counter type, CV is min(type maximum, number of rising CU edges among the non-reset calls since the last call with R), Q is TRUE iff CV >= PV, and no call overflows.", "quantifier": "every counter type and every finite sequence of (CU, R, PV) calls", "why_tests_cant": "Call histories have unbounded length; a test runs one finite script of inputs. Saturation needs up to 2^63 edges.", "anchors": ["src/counters.rs:ctu", "src/counters.rs:CTU, CTU_INT, CTU_DINT, CTU_UDINT, CTU_LINT, CTU_ULINT"]}
{"id": "C06", "title": "CTD counts down from the last load, saturating", "statement": "After any call history on a CTD of any counter type, CV is max(type minimum, loaded value minus the number of rising CD edges among the non-load calls since the last load), Q is TRUE iff CV <= 0, and no call underflows.", "quantifier": "every counter type and every finite sequence of (CD, LD, PV) calls", "why_tests_cant": "Call histories have unbounded length; a test runs one finite script of inputs. Saturation needs up to 2^63 edges.", "anchors": ["src/counters.rs:ctd", "src/counters.rs:CTD, CTD_INT, CTD_DINT, CTD_UDINT, CTD_LINT, CTD_ULINT"]}
{"id": "C07", "title": "CTUD priorities, cancellation and saturation", "statement": "In every call history of CTUD, R forces CV=0, otherwise LD forces CV=PV, otherwise CV moves by (up edge) - (down edge) clamped to the type range (simultaneous edges cancel); QU iff CV>=PV and QD iff CV<=0 after every call; CV never leaves the type range.", "quantifier": "every counter type and every finite sequence of (CU, CD, R, LD, PV) calls of a fresh instance", "why_tests_cant": "Call histories have unbounded length; a test runs one finite script of inputs.", "anchors": ["src/counters.rs:ctud"]}
{"id": "C08", "title": "Counters count only edges between consecutive calls", "statement": "A counter must count a call iff CU (CD) is TRUE in that call and was FALSE in the immediately preceding call of that instance, whatever R or LD did in between.", "quantifier": "every finite call history of CTU, CTD, CTUD", "why_tests_cant": "Depends on interleavings of R/LD with the clock input that no existing test exercises.", "anchors": ["src/counters.rs:ctu", "src/counters.rs:ctd", "src/counters.rs:ctud"]}
{"id": "C09", "title": "TON: on-delay over every history", "statement": "For a fresh TON called at non-decreasing times with any IN and PT: Q is TRUE iff IN is TRUE now, has been TRUE in every call since a first call at time t0, this is not that first call, and now - t0 > PT; ET is min(PT, now - t0) while IN is TRUE (0 in the first such call) and 0 otherwise.", "quantifier": "every finite history of (IN, PT, clock) calls with a monotone clock and PT >= 0", "why_tests_cant": "Unbounded histories and arbitrary call times; a test samples a handful of instants.", "anchors": ["src/timers.rs:TON", "src/timers.rs:TimerParams"]}
{"id": "C10", "title": "TOF: off-delay over every history", "statement": "For a fresh TOF: Q is TRUE iff IN is TRUE, or IN was TRUE earlier and the time since the first FALSE call after the last TRUE call is at most PT (the first FALSE call included); ET is 0 while IN is TRUE or was never TRUE, and min(PT, time since that first FALSE call) otherwise.", "quantifier": "every finite history of (IN, PT, clock) calls with a monotone clock and PT >= 0", "why_tests_cant": "Unbounded histories and arbitrary call times.", "anchors": ["src/timers.rs:TOF", "src/timers.rs:TimerParams"]}
{"id": "C11", "title": "TP: a started pulse is not interruptible and ends on time", "statement": "Once TP has started a pulse at time t0, every later call of that pulse made at a time within t0+PT gives Q=TRUE and ET = time since t0 whatever IN does, and the first call after t0+PT gives Q=FALSE; none of these calls aborts.", "quantifier": "every reachable started state and every finite sequence of (IN, clock) calls", "why_tests_cant": "Unbounded histories and arbitrary call times.", "anchors": ["src/timers.rs:TP"]}
{"id": "C12", "title": "TP never aborts", "statement": "No call sequence on a fresh TP instance aborts the program.", "quantifier": "every finite history of (IN, PT, clock) calls", "why_tests_cant": "The failing histories (idle calls with IN=FALSE) are simply absent from the test suite; only a universally quantified statement shows which histories are safe.", "anchors": ["src/timers.rs:TP"]}
{"id": "C13", "title": "TP starts a pulse on every rising edge while idle", "statement": "Whenever a TP pulse is over (Q=FALSE) and IN rises from FALSE in the previous call to TRUE, the call starts a new pulse (Q=TRUE, ET=0).", "quantifier": "every finite history of (IN, PT, clock) calls", "why_tests_cant": "Depends on where IN fell relative to the end of the previous pulse.", "anchors": ["src/timers.rs:TP"]}
{"id": "C14", "title": "Timer ET stays in range and is monotone within a run", "statement": "For PT >= 0 and a monotone clock, after every call of TON, TOF or TP: 0 <= ET <= PT, and within one timing run with constant PT, ET never decreases.", "quantifier": "every reachable timer state and next call", "why_tests_cant": "Unbounded histories and arbitrary call times.", "anchors": ["src/timers.rs:TimerParams::update_elapsed_time", "src/timers.rs:TP", "src/timers.rs:TON", "src/timers.rs:TOF"]}
{"id": "C15", "title": "Negative preset times expire at once", "statement": "A timer with PT < 0 behaves as if already expired (TON output immediately after the first call, TOF and TP drop out at the next call) and keeps ET >= 0.", "quantifier": "every negative PT and every call time", "why_tests_cant": "The sign-cast affects half of all 64-bit presets.", "anchors": ["src/timers.rs:TimerParams::is_in_preset_range", "src/timers.rs:TimerParams::update_elapsed_time"]}
{"id": "C16", "title": "MAX and MIN return an extremal element of the array", "statement": "For any non-empty array of an ordered type the result is an element of the array and bounds every element; an empty array or null pointer aborts.", "quantifier": "every array length and contents, all integer/bit/time types", "why_tests_cant": "All lengths and contents.", "anchors": ["src/types.rs:define_order_type", "iec61131-st/selectors.st"]}
{"id": "C17", "title": "LIMIT clamps", "statement": "If MN <= MX then LIMIT(MN,IN,MX) is the point of [MN,MX] nearest to IN (so it is in the interval, equals IN iff IN was inside, is idempotent and monotone); if MN > MX it returns MN or MX and never IN.", "quantifier": "every MN, IN, MX of every ordered type", "why_tests_cant": "2^192 inputs for LINT.", "anchors": ["src/types.rs:limit"]}
{"id": "C18", "title": "Float MAX/MIN/LIMIT and NaN", "statement": "MAX/MIN over a REAL/LREAL array ignores NaN elements: the result is NaN iff every element is NaN, otherwise it is a non-NaN element bounding all non-NaN elements. LIMIT returns NaN iff IN is NaN (a NaN bound is never selected); for non-NaN MN<=MX and IN the result is in [MN,MX].", "quantifier": "every array of binary32/binary64 values", "why_tests_cant": "All lengths, contents and NaN placements.", "anchors": ["src/types.rs:define_float_type", "src/types.rs:limit"]}
{"id": "C19", "title": "SHL and SHR below the word width", "statement": "For n < width, bit i of SHL(x,n) is bit i-n of x (0 below n) and bit i of SHR(x,n) is bit i+n of x (0 above); equivalently x*2^n mod 2^width and floor(x/2^n).", "quantifier": "every x of BYTE/WORD/DWORD/LWORD and every n < width", "why_tests_cant": "2^64 x 64 inputs.", "anchors": ["src/bit_shift_functions.rs:SHL__*, SHR__*"]}
{"id": "C20", "title": "SHL and SHR at or beyond the word width give 0", "statement": "For n >= width every bit has been shifted out, so SHL and SHR return 0 and do not abort, in debug and in release builds.", "quantifier": "every x, every n >= width, both build profiles", "why_tests_cant": "Build-profile dependent and only for large n.", "anchors": ["src/bit_shift_functions.rs:SHL__*, SHR__*"]}
{"id": "C21", "title": "ROL and ROR are inverse cyclic rotations", "statement": "Bit i of ROL(x,n) is bit (i-n) mod width of x, ROR undoes ROL for every n, rotation by n depends only on n mod width, and rotations compose additively.", "quantifier": "every x of BYTE/WORD/DWORD/LWORD and every 32-bit n", "why_tests_cant": "2^96 inputs.", "anchors": ["src/bit_shift_functions.rs:ROL__*, ROR__*"]}
{"id": "C22", "title": "Endianness conversion round trip", "statement": "FROM_BIG_ENDIAN(TO_BIG_ENDIAN(x)) = x and FROM_LITTLE_ENDIAN(TO_LITTLE_ENDIAN(x)) = x for every integer, bit and time type on every host.", "quantifier": "every x of every width and both host byte orders", "why_tests_cant": "Host dependent and over all 2^64 values.", "anchors": ["src/endianness_conversion_functions.rs:define_endianness_for_int_types"]}
{"id": "C23", "title": "REAL/LREAL endianness conversion reorders bytes", "statement": "TO_BIG_ENDIAN applied to a REAL or LREAL yields a value whose in-memory byte sequence is the big-endian encoding of the input, as for integers.", "quantifier": "every bit pattern and both host byte orders", "why_tests_cant": "Over all bit patterns.", "anchors": ["src/endianness_conversion_functions.rs:TO_BIG_ENDIAN__REAL, TO_BIG_ENDIAN__LREAL"]}
{"id": "C24", "title": "IS_VALID_BCD accepts exactly the BCD encodings", "statement": "IS_VALID_BCD(x) is TRUE iff x is the packed-BCD encoding of some decimal number with width/4 digits, i.e. iff all of its hexadecimal digits are at most 9.", "quantifier": "every x of BYTE/WORD/DWORD/LWORD", "why_tests_cant": "2^64 inputs.", "anchors": ["src/validation_functions.rs:is_valid_bcd"]}
{"id": "C25", "title": "IS_VALID and bit reinterpretation", "statement": "IS_VALID is TRUE iff the value is finite, i.e. iff its exponent field is not all ones; DWORD_TO_REAL/REAL_TO_DWORD and LWORD_TO_LREAL/LREAL_TO_LWORD are mutually inverse on all bit patterns.", "quantifier": "every 32/64-bit pattern", "why_tests_cant": "2^64 inputs.", "anchors": ["src/validation_functions.rs:IS_VALID__REAL, IS_VALID__LREAL", "src/bit_num_conversion.rs"]}
{"id": "C26", "title": "CONCAT_DATE is the Gregorian calendar", "statement": "CONCAT_DATE(y,m,d) returns the midnight timestamp of that proleptic Gregorian date when the date exists and fits the 64-bit nanosecond range, and aborts otherwise; consecutive calendar days are exactly 86400e9 ns apart.", "quantifier": "every (y,m,d) of 32-bit arguments", "why_tests_cant": "All dates, century and leap rules.", "anchors": ["src/date_time_extra_functions.rs:concat_date, CONCAT_DATE__INT.."]}
{"id": "C27", "title": "SPLIT_DATE inverts CONCAT_DATE and never aborts", "statement": "For every 64-bit DATE the SPLIT_DATE functions succeed and return the calendar date whose day contains it; SPLIT_DATE(CONCAT_DATE(y,m,d)) = (y,m,d), and CONCAT_DATE(SPLIT_DATE(t)) is the midnight of t, or aborts when that midnight is before the 64-bit range.", "quantifier": "every i64 and every valid date", "why_tests_cant": "2^64 timestamps.", "anchors": ["src/date_time_extra_functions.rs:SPLIT_DATE__*", "src/date_time_extra_functions.rs:concat_date"]}
{"id": "C28", "title": "A DT is the sum of its DATE and TOD parts", "statement": "DT_TO_DATE(t) + DT_TO_TOD(t) = t, DT_TO_DATE is a multiple of one day, 0 <= DT_TO_TOD(t) < 24h, and CONCAT_DATE_TOD(DT_TO_DATE(t), DT_TO_TOD(t)) = t for every t whose midnight is representable; DT_TO_DATE aborts on exactly the remaining t.", "quantifier": "every i64 timestamp", "why_tests_cant": "2^64 timestamps.", "anchors": ["src/date_time_conversion.rs", "src/date_time_extra_functions.rs:CONCAT_DATE_TOD"]}
{"id": "C29", "title": "CONCAT_TOD and SPLIT_TOD are inverse", "statement": "For h<24, m<60, s<60, ms<1000 CONCAT_TOD returns the nanoseconds since midnight and SPLIT_TOD returns the same fields; SPLIT_TOD succeeds on every i64 with in-range fields.", "quantifier": "every field combination and every i64", "why_tests_cant": "All timestamps and combinations.", "anchors": ["src/date_time_extra_functions.rs:concat_tod, SPLIT_TOD__*"]}
{"id": "C30", "title": "CONCAT_TOD results are times of day", "statement": "CONCAT_TOD either aborts or returns a value in [0, 24h) and aborts whenever a field is out of its clock range (h>23, m>59, s>59, ms>999).", "quantifier": "every u32 field combination", "why_tests_cant": "Only a sub-range of the millisecond argument misbehaves.", "anchors": ["src/date_time_extra_functions.rs:concat_tod"]}
{"id": "C31", "title": "Wide-integer CONCAT variants reject out-of-range fields", "statement": "CONCAT_DATE / CONCAT_TOD / CONCAT_DT called with DINT, UDINT, LINT or ULINT arguments abort whenever year, month, day or a clock field is outside its legal range.", "quantifier": "every 64-bit argument tuple", "why_tests_cant": "Values that only alias a legal field modulo 2^32.", "anchors": ["src/date_time_extra_functions.rs:CONCAT_DATE__LINT, CONCAT_DATE__ULINT, CONCAT_TOD__LINT, CONCAT_TOD__ULINT"]}
{"id": "C32", "title": "DAY_OF_WEEK is the seven-day cycle", "statement": "DAY_OF_WEEK is constant within a day, advances by one modulo 7 from each day to the next, is in 0..6, and is 4 (Thursday) on 1970-01-01.", "quantifier": "every i64 timestamp", "why_tests_cant": "2^64 timestamps.", "anchors": ["src/date_time_extra_functions.rs:DAY_OF_WEEK"]}
{"id": "C33", "title": "SPLIT_DT and CONCAT_DT are inverse at millisecond resolution", "statement": "SPLIT_DT succeeds on every i64 and CONCAT_DT(SPLIT_DT(t)) is t truncated to the millisecond (for t >= the first representable midnight); SPLIT_DT(CONCAT_DT(fields)) returns the fields.", "quantifier": "every i64 and every valid field tuple", "why_tests_cant": "2^64 timestamps.", "anchors": ["src/date_time_extra_functions.rs:SPLIT_DT__*", "iec61131-st/date_time_extra_functions.st:CONCAT_DT"]}
{"id": "C34", "title": "TIME/DATE addition and subtraction are exact or abort", "statement": "ADD_TIME, SUB_TIME, ADD_*_TIME, SUB_*_TIME and SUB_*_* return the exact mathematical sum/difference when it fits in 64 bits and abort otherwise; they never wrap.", "quantifier": "every pair of i64 values", "why_tests_cant": "2^128 inputs.", "anchors": ["src/date_time_numeric_functions.rs:ADD_TIME, SUB_TIME, add_datetime_time, sub_datetimes, sub_datetime_duration"]}
{"id": "C35", "title": "Date arithmetic laws", "statement": "SUB_DT_TIME(ADD_DT_TIME(d,t),t) = d, SUB_DT_DT(ADD_DT_TIME(d,t),d) = t and ADD_DT_TIME(d,SUB_DT_DT(e,d)) = e whenever the inner call succeeds and the outer result is one the installed chrono release can deliver (all of i64 for current releases, all but the lowest partial second for older ones); hence ADD_TOD_TIME does not wrap at midnight.", "quantifier": "every pair of i64 values", "why_tests_cant": "2^128 inputs.", "anchors": ["src/date_time_numeric_functions.rs:add_datetime_time, sub_datetimes, sub_datetime_duration"]}
{"id": "C36", "title": "TIME by signed integer: exact product, truncated quotient", "statement": "MUL_TIME by a signed integer is exact or aborts on overflow; DIV_TIME truncates toward zero, aborts exactly on division by zero and on MIN/-1, and satisfies t = q*d + r with |r| < |d| and r having the sign of t.", "quantifier": "every i64 and every signed operand", "why_tests_cant": "2^128 inputs.", "anchors": ["src/date_time_numeric_functions.rs:checked_mul_time_with_signed_int, checked_div_time_by_signed_int"]}
{"id": "C37", "title": "TIME by unsigned integer aborts only on overflow", "statement": "MUL_TIME/DIV_TIME by an unsigned integer return the exact product/truncated quotient whenever it is representable as TIME (and the divisor is non-zero).", "quantifier": "every i64 and every u64 operand", "why_tests_cant": "Fails only for operands above 2^63.", "anchors": ["src/date_time_numeric_functions.rs:checked_mul_time_with_unsigned_int, checked_div_time_by_unsigned_int"]}
{"id": "C38", "title": "TIME by REAL/LREAL: sign rules and abort conditions", "statement": "MUL/DIV of TIME by REAL/LREAL obey the sign rule f(-t,x) = -f(t,x) = f(t,-x), map 0 to 0 for finite non-zero factors, abort for NaN, for an infinite product and for division by zero, and never return a wrong-signed value.", "quantifier": "every i64 and every float", "why_tests_cant": "All 2^128 combinations.", "anchors": ["src/date_time_numeric_functions.rs:checked_mul_time_with_f32, checked_mul_time_with_f64, checked_div_time_by_f32, checked_div_time_by_f64"]}
{"id": "C39", "title": "TIME by REAL/LREAL: neutral factor", "statement": "Multiplying or dividing a TIME by 1.0 returns the same TIME.", "quantifier": "every i64 in both precisions", "why_tests_cant": "Only values whose seconds are not exactly representable fail.", "anchors": ["src/date_time_numeric_functions.rs:checked_mul_time_with_f32, checked_mul_time_with_f64, checked_div_time_by_f32, checked_div_time_by_f64"]}
{"id": "C40", "title": "LEN counts characters", "statement": "LEN of a NUL-terminated STRING holding the UTF-8 encoding of a character sequence is the number of characters; for WSTRING it is the number of characters of the UTF-16 encoding; invalid UTF-8 aborts.", "quantifier": "every character sequence and every byte sequence", "why_tests_cant": "All strings.", "anchors": ["src/string_functions.rs:LEN__STRING, LEN__WSTRING"]}
{"id": "C41", "title": "LEFT, RIGHT and MID select exactly the requested characters", "statement": "For 0 <= L <= LEN(s) LEFT/RIGHT write the first/last L characters; for 1 <= P, 0 <= L, P-1+L <= LEN(s) MID writes characters P..P+L-1; otherwise they abort (negative or too large arguments).", "quantifier": "every string and every pair of 32-bit arguments", "why_tests_cant": "All strings and arguments.", "anchors": ["src/string_functions.rs:LEFT_EXT__*, RIGHT_EXT__*, MID_EXT__*"]}
{"id": "C42", "title": "LEFT/RIGHT/MID decompose a string", "statement": "CONCAT(LEFT(s,n), RIGHT(s,LEN(s)-n)) = s; MID(s,L,1) = LEFT(s,L); MID(s,L,LEN(s)-L+1) = RIGHT(s,L); LEN(LEFT(s,n)) = n.", "quantifier": "every string and every legal n", "why_tests_cant": "All strings.", "anchors": ["src/string_functions.rs:LEFT_EXT__*, RIGHT_EXT__*, MID_EXT__*, CONCAT__*"]}
{"id": "C43", "title": "INSERT, DELETE and REPLACE", "statement": "INSERT(s,t,p) is the first p characters of s, t, the rest; DELETE(s,l,p) removes characters p..p+l-1; REPLACE(s,t,l,p) equals INSERT(DELETE(s,l,p),t,p-1); DELETE undoes INSERT; LEN adds up.", "quantifier": "every pair of strings and legal positions", "why_tests_cant": "All strings.", "anchors": ["src/string_functions.rs:INSERT_EXT__*, DELETE_EXT__*, REPLACE_EXT__*"]}
{"id": "C44", "title": "Negative lengths are rejected", "statement": "DELETE and REPLACE called with a negative length abort in every build profile and never produce output.", "quantifier": "every string, every negative length, every position, both build profiles", "why_tests_cant": "Profile dependent integer wrap-around.", "anchors": ["src/string_functions.rs:DELETE_EXT__STRING, REPLACE_EXT__STRING, DELETE_EXT__WSTRING, REPLACE_EXT__WSTRING"]}
{"id": "C45", "title": "FIND returns the first character position", "statement": "For STRINGs holding valid UTF-8, FIND never aborts and returns the 1-based character index of the first occurrence of the needle, or 0 when it does not occur or either string is empty, although it searches bytes.", "quantifier": "every pair of character sequences", "why_tests_cant": "All strings; relies on UTF-8 self-synchronisation.", "anchors": ["src/string_functions.rs:FIND__STRING"]}
{"id": "C46", "title": "FIND on WSTRING returns the first character position", "statement": "Same for well-formed UTF-16 WSTRINGs, including characters outside the BMP.", "quantifier": "every pair of character sequences", "why_tests_cant": "All strings; relies on surrogate disjointness.", "anchors": ["src/string_functions.rs:FIND__WSTRING"]}
{"id": "C47", "title": "CONCAT joins all arguments", "statement": "CONCAT of n >= 1 strings writes the concatenation of their characters followed by NUL; it is associative and LEN is additive.", "quantifier": "every argument count and contents", "why_tests_cant": "All argument lists.", "anchors": ["src/string_functions.rs:CONCAT__STRING, CONCAT_EXT__STRING, CONCAT__WSTRING, CONCAT_EXT__WSTRING"]}
{"id": "C48", "title": "String results are well-formed, terminated and in place", "statement": "Every STRING function that succeeds writes exactly the encoded result plus one NUL at the start of the destination, the result is valid UTF-8 (UTF-16), and all destination units after the NUL keep their value.", "quantifier": "every input and every destination contents", "why_tests_cant": "All inputs and destination contents.", "anchors": ["src/string_functions.rs:CharsEncoder"]}
{"id": "C49", "title": "String comparison operators are coherent", "statement": "For two strings exactly one of LT, EQ, GT holds, GE = not LT, LE = not GT, NE = not EQ; an n-ary LT/LE/GT/GE/EQ is TRUE iff all (not only adjacent) pairs are so ordered.", "quantifier": "every argument list of any length", "why_tests_cant": "All argument lists.", "anchors": ["src/string_functions.rs:compare, GT__*, GE__*, EQ__*, LE__*, LT__*, NE__*"]}
{"id": "C50", "title": "STRING order is code point order", "statement": "For valid UTF-8 strings the comparison result equals lexicographic comparison of the character (code point) sequences.", "quantifier": "every pair of character sequences", "why_tests_cant": "All strings.", "anchors": ["src/string_functions.rs:compare, GT__STRING .."]}
{"id": "C51", "title": "WSTRING order is code point order", "statement": "For well-formed UTF-16 strings the comparison result equals lexicographic comparison of the code point sequences.", "quantifier": "every pair of character sequences", "why_tests_cant": "Only mixed BMP/supplementary pairs misbehave.", "anchors": ["src/string_functions.rs:compare, GT__WSTRING .."]}
{"id": "C52", "title": "STRING <-> WSTRING conversion is lossless", "statement": "WSTRING_TO_STRING(STRING_TO_WSTRING(s)) = s for every valid STRING and STRING_TO_WSTRING(WSTRING_TO_STRING(w)) = w for every well-formed WSTRING (zero-initialised destinations); unpaired surrogates become U+FFFD.", "quantifier": "every string", "why_tests_cant": "All strings.", "anchors": ["src/string_conversion.rs:WSTRING_TO_STRING_EXT, STRING_TO_WSTRING_EXT"]}
{"id": "C53", "title": "STRING_TO_WSTRING terminates its result", "statement": "Whatever the destination held before, reading it back as a NUL-terminated WSTRING gives the converted text.", "quantifier": "every source and destination contents", "why_tests_cant": "Depends on stale destination contents.", "anchors": ["src/string_conversion.rs:STRING_TO_WSTRING_EXT"]}
{"id": "C54", "title": "CHAR <-> WCHAR round trip", "statement": "WCHAR_TO_CHAR(CHAR_TO_WCHAR(c)) = c for every CHAR c.", "quantifier": "all 256 CHAR values", "why_tests_cant": "The suite only checks ASCII.", "anchors": ["src/string_conversion.rs:WCHAR_TO_CHAR, CHAR_TO_WCHAR"]}
{"id": "C55", "title": "Integer to string and back", "statement": "STRING_TO_LINT(LINT_TO_STRING(x)) = x for every LINT x; likewise DINT and the WSTRING variants, and BYTE/DWORD/LWORD/DINT/LINT_TO_STRING yields the canonical decimal numeral (no leading zeros).", "quantifier": "every 64-bit integer", "why_tests_cant": "2^64 values.", "anchors": ["src/extra_functions.rs:LINT_TO_STRING_EXT, BYTE_TO_STRING_EXT, LWORD_TO_STRING_EXT, STRING_TO_LINT, STRING_TO_DINT"]}
{"id": "C56", "title": "STRING_TO_LINT/DINT accept exactly the numerals", "statement": "STRING_TO_LINT (DINT) succeeds iff the text is an optional radix prefix (16#, 0x, 0X, 8#, 2#, 0b, 0B), an optional sign and at least one digit of that radix whose value fits; it then returns that value; all other texts abort.", "quantifier": "every byte string", "why_tests_cant": "All strings.", "anchors": ["src/extra_functions.rs:string_to_int, STRING_TO_LINT, STRING_TO_DINT"]}
{"id": "C57", "title": "Number-to-string results are terminated", "statement": "Whatever the destination held before, reading it back as a NUL-terminated STRING gives the number just written.", "quantifier": "every number and destination contents", "why_tests_cant": "Depends on stale destination contents.", "anchors": ["src/extra_functions.rs:BYTE_TO_STRING_EXT, LWORD_TO_STRING_EXT, LINT_TO_STRING_EXT"]}
{"id": "C58", "title": "WSTRING_TO_DINT agrees with STRING_TO_DINT", "statement": "WSTRING_TO_DINT of the widened text gives the same result, or aborts on the same texts, as STRING_TO_DINT.", "quantifier": "every numeral text", "why_tests_cant": "Only numerals outside the 32-bit range differ.", "anchors": ["iec61131-st/extra_functions.st:WSTRING_TO_DINT", "src/extra_functions.rs:STRING_TO_DINT"]}
{"id": "C59", "title": "TIME_TO_STRING is unambiguous", "statement": "For every TIME t > 0 the text produced lists the units d,h,m,s,ms,us,ns in order, each non-zero count within its unit range, and the weighted sum of the counts is t; distinct times give distinct texts.", "quantifier": "every positive i64", "why_tests_cant": "2^63 values.", "anchors": ["src/extra_functions.rs:TIME_TO_STRING_EXT, parse_timestamp"]}
{"id": "C60", "title": "TIME_TO_STRING represents zero and negative times", "statement": "TIME_TO_STRING of 0 is a non-empty text and of a negative time is the text of its absolute value with a sign; no two TIME values share a text.", "quantifier": "every i64", "why_tests_cant": "Half of the domain is untested.", "anchors": ["src/extra_functions.rs:TIME_TO_STRING_EXT, parse_timestamp"]}
{"id": "C61", "title": "DATE/DT/TOD_TO_STRING are faithful", "statement": "The text of a DATE, DT or TOD determines its value: parsing YYYY-MM-DD[-HH:MM:SS[.fff]] recovers the calendar date, respectively the exact timestamp or the time of day, for every i64.", "quantifier": "every i64 timestamp", "why_tests_cant": "2^64 values.", "anchors": ["src/extra_functions.rs:DT_TO_STRING_EXT, DATE_TO_STRING_EXT, TOD_TO_STRING_EXT"]}
{"id": "C62", "title": "LREAL_TO_STRING never aborts", "statement": "LREAL_TO_STRING writes the value rounded to six decimals (or, from 1e14 on, scientific notation with six decimals and the least power of ten that leaves one digit before the point) for every LREAL without aborting.", "quantifier": "every binary64 value", "why_tests_cant": "Only large negative values abort.", "anchors": ["src/extra_functions.rs:LREAL_TO_STRING_EXT, REAL_TO_STRING_EXT"]}
{"id": "C63", "title": "TIME() is a time of day", "statement": "TIME() returns local seconds since midnight times 1e9 plus the sub-second nanoseconds, hence a value in [0, 24h) whenever the clock is not inside a leap second.", "quantifier": "every clock reading", "why_tests_cant": "All clock readings.", "anchors": ["src/extra_functions.rs:TIME"]}
{"id": "C64", "title": "Integer conversions preserve the value when it fits", "statement": "For every X_TO_Y among integer and bit types, the result equals the input when the input is in Y's range and is congruent to it modulo 2^bits(Y) otherwise; widening then narrowing back is the identity.", "quantifier": "every source/target pair in the conversion tables and every value", "why_tests_cant": "2^64 values times hundreds of functions.", "anchors": ["iec61131-st/num_conversion.st", "iec61131-st/bit_conversion.st", "iec61131-st/bit_num_conversion.st"]}
{"id": "C65", "title": "BOOL conversions", "statement": "BOOL_TO_X gives 0/1 and X_TO_BOOL(BOOL_TO_X(b)) = b; LINT_TO_BOOL/DINT_TO_BOOL are TRUE iff the argument is non-zero; the bit-type x_TO_BOOL functions agree with that reading on 0 and 1.", "quantifier": "every value", "why_tests_cant": "All values.", "anchors": ["iec61131-st/bit_conversion.st", "iec61131-st/extra_functions.st:LINT_TO_BOOL"]}
{"id": "C66", "title": "Bit-type to BOOL is the non-zero test", "statement": "LWORD_TO_BOOL, DWORD_TO_BOOL, WORD_TO_BOOL and BYTE_TO_BOOL are TRUE iff the argument is non-zero, as LINT_TO_BOOL and DINT_TO_BOOL are.", "quantifier": "every value", "why_tests_cant": "All even values fail.", "anchors": ["iec61131-st/bit_conversion.st"]}
{"id": "C67", "title": "ABS is non-negative", "statement": "ABS(x) >= 0 and |ABS(x)| = |x| for every SINT, INT, DINT, LINT x.", "quantifier": "every integer", "why_tests_cant": "Fails only at the type minimum.", "anchors": ["iec61131-st/numerical_functions.st:ABS__SINT, ABS__INT, ABS__DINT, ABS__LINT"]}
{"id": "C68", "title": "ROUND and the REAL-to-integer conversions round half away from zero", "statement": "For every finite REAL/LREAL x, REAL_TO_LINT(x) (and the other integer targets, when the result fits) is the integer nearest to x, ties away from zero; TRUNC is the integer part toward zero.", "quantifier": "every finite float", "why_tests_cant": "All floats.", "anchors": ["src/numerical_functions.rs:ROUND__REAL, ROUND__LREAL", "iec61131-st/num_conversion.st", "iec61131-st/extra_functions.st:TRUNC__*"]}
{"id": "C69", "title": "EXPT with integer exponents honours the exponent", "statement": "EXPT(x, n) with UDINT, ULINT or LINT exponent uses the full exponent value: equal results require equal powers, e.g. EXPT(2.0, 2^32) is not EXPT(2.0, 0).", "quantifier": "every base and exponent", "why_tests_cant": "Only exponents beyond 32 bits differ.", "anchors": ["iec61131-st/arithmetic_functions.st:EXPT__REAL__ULINT .."]}
{"id": "C70", "title": "Function block instances fit their ST declarations", "statement": "Every field the Rust implementation of TP/TON/TOF, CTU/CTD/CTUD, R_TRIG/F_TRIG, SR/RS reads or writes lies inside the storage declared for the block in ST and the declared inputs/outputs are at the offsets the implementation uses.", "quantifier": "all blocks and counter types, 64-bit C layout", "why_tests_cant": "A layout mismatch corrupts neighbouring variables only for particular instance placements.", "anchors": ["src/timers.rs:TimerParams", "src/counters.rs:CTUParams, CTDParams, CTUDParams", "iec61131-st/timers.st", "iec61131-st/counters.st"]}
{"id": "C71", "title": "SQRT is correctly rounded", "statement": "SQRT(x) for REAL and LREAL is the representable value nearest to the real square root (ties to even), NaN exactly for NaN and negative non-zero arguments, monotone, and exact on squares of representable values.", "quantifier": "every float", "why_tests_cant": "All floats.", "anchors": ["src/arithmetic_functions.rs:SQRT__REAL, SQRT__LREAL"]}
{"id": "C72", "title": "CONCAT_DT is CONCAT_DATE plus CONCAT_TOD", "statement": "Whenever CONCAT_DATE(y,m,d), CONCAT_TOD(h,mi,s,ms) and CONCAT_DT(y,m,d,h,mi,s,ms) succeed, the DT is the sum of the DATE and the TOD.", "quantifier": "every argument tuple of every width", "why_tests_cant": "Only leap-second milliseconds in the last second of a day break it.", "anchors": ["src/date_time_extra_functions.rs", "iec61131-st/date_time_extra_functions.st:CONCAT_DT__INT .."]}
{"id": "C73", "title": "TIME times or divided by a REAL/LREAL is accurate", "statement": "For every TIME t and every finite REAL/LREAL x, MUL_TIME(t, x) and DIV_TIME(t, x), when they return, differ from the real product/quotient y of the exact operands by at most half a nanosecond (one nanosecond with older standard libraries) plus about four units of round-off of y; and they do return whenever y together with that error fits in a TIME, and abort if y without that error does not. Between durations of whole 1/512 seconds that the significand has room for (with REAL, t a multiple of 1/8 second) nothing is rounded: 1.5 s times 2.5 is exactly 3.75 s, divided by 2.5 it is 1.5 s again. Where y seconds is a value of the format, y is rounded only once, to the nearest whole nanosecond, halves to the even one.", "quantifier": "every TIME, every finite float, both precisions, three generations of the Rust duration conversion", "why_tests_cant": "A bound on a chain of five roundings over 2^64 times 2^64 operand pairs; failures cluster at second boundaries and near overflow.", "anchors": ["src/date_time_numeric_functions.rs:MUL__TIME__REAL, MUL__TIME__LREAL, DIV__TIME__REAL, DIV__TIME__LREAL"]}
{"id": "C74", "title": "EXPT with a whole exponent is exact when the power is representable", "statement": "For a base m*2^j and a whole exponent n >= 0 whose power m^n*2^(j*n) is representable with the format's precision and range, EXPT returns exactly that power; for a whole-number base and exponent -n it returns the representable value nearest to the reciprocal.", "quantifier": "every finite base, every DINT exponent, both precisions", "why_tests_cant": "Repeated squaring rounds every intermediate; no finite set of samples shows all intermediates of representable powers are exact.", "anchors": ["src/arithmetic_functions.rs:EXPT__REAL__DINT, EXPT__LREAL__DINT"]}
{"id": "C75", "title": "Date and time types convert without loss", "statement": "Every TIME/LTIME/DATE/LDATE/TOD/LTOD/DT/LDT value converts to LINT unchanged, to ULINT and LWORD modulo 2^64, and back from ULINT, LWORD (and LINT where offered) to the same value; long and short variants convert unchanged; DT splits into whole days (DATE) and the rest of the day (TOD) also before 1970.", "quantifier": "every i64 value, every conversion function of the date/time group", "why_tests_cant": "2^64 values times some fifty functions; negative values and the last day of the range are untested.", "anchors": ["iec61131-st/date_time_conversion.st", "iec61131-st/extra_functions.st", "src/date_time_conversion.rs"]}
{"id": "C76", "title": "Integer to REAL/LREAL conversion is correctly rounded", "statement": "X_TO_REAL and X_TO_LREAL of an integer (and TIME_TO_LREAL) give the nearest representable value, ties to even; integers up to 2^24 (REAL) and 2^53 (LREAL) convert exactly and convert back to themselves.", "quantifier": "every integer of every integer type", "why_tests_cant": "2^64 values; rounding errors appear only above 2^24 and 2^53.", "anchors": ["iec61131-st/num_conversion.st", "iec61131-st/extra_functions.st:TIME_TO_LREAL"]}
{"id": "C77", "title": "REAL to LREAL and back", "statement": "REAL_TO_LREAL keeps the value of every finite REAL; LREAL_TO_REAL gives the nearest REAL, or the infinity of the same sign from 2^128-2^103 on; REAL -> LREAL -> REAL is the identity on all non-NaN values including subnormals, zeros and infinities.", "quantifier": "every binary32 and binary64 value", "why_tests_cant": "2^32 and 2^64 values, subnormals and the overflow threshold.", "anchors": ["iec61131-st/num_conversion.st:REAL_TO_LREAL, LREAL_TO_REAL"]}
{"id": "C78", "title": "STRING_TO_LREAL/REAL accept exactly the decimal literals, correctly rounded", "statement": "STRING_TO_LREAL (REAL) succeeds iff the text is an optional sign followed by a decimal literal (digits, at most one point, optional exponent) or by inf, infinity or nan in any case; a literal gives the nearest binary64 (binary32) number, ties to even, infinity from half a unit beyond the largest number on, with the sign kept for zero; all other texts abort.", "quantifier": "every byte string", "why_tests_cant": "All strings; correct rounding is decided by digits far behind the precision of the result.", "anchors": ["src/extra_functions.rs:STRING_TO_LREAL, STRING_TO_REAL, string_to_float", "iec61131-st/extra_functions.st:WSTRING_TO_LREAL, WSTRING_TO_REAL"]}
{"id": "C79", "title": "Real to string and back", "statement": "STRING_TO_LREAL(LREAL_TO_STRING(x)) has the sign of x, differs from x by at most 1e-6 below 1e14 and by at most one part in 999999 from 1e14 on, and equals x when x is a multiple of 1e-6 below 1e14; infinities and NaN come back as themselves; likewise REAL.", "quantifier": "every binary64 (binary32) value above -1e73", "why_tests_cant": "2^64 values.", "anchors": ["src/extra_functions.rs:LREAL_TO_STRING_EXT, STRING_TO_LREAL, STRING_TO_REAL", "iec61131-st/extra_functions.st:REAL_TO_STRING"]}
{"id": "C80", "title": "X_TO_WSTRING writes the text of X_TO_STRING", "statement": "For every integer, time, date and real type X_TO_WSTRING(x) holds the same text as X_TO_STRING(x).", "quantifier": "every value of every type with both conversions", "why_tests_cant": "2^64 values, 11 types.", "anchors": ["iec61131-st/extra_functions.st:BYTE_TO_WSTRING ... REAL_TO_WSTRING"]}
{"id": "C81", "title": "Zero-initialised timers are fresh timers", "statement": "A TP, TON or TOF instance whose memory ST has set to zero before the first cycle behaves in every call history as a freshly created timer: no elapsed time, no running pulse.", "quantifier": "every history of calls and clock readings, both in-memory representations of the optional start time", "why_tests_cant": "The suite creates instances with the Rust default value, never from zeroed memory, and its mock clock starts at zero.", "anchors": ["src/timers.rs:TimerParams, TP, TON, TOF", "iec61131-st/timers.st"]}
{"id": "C82", "title": "Every external function is exported with the interface it is declared with", "statement": "Every non-generic function declared external in the ST files has exactly one exported Rust function of its name; every exported function whose name is a declared function or an instance of a declared generic function has the declared result type and, parameter by parameter, the declared passing mode and representation; and it has the C calling convention the caller uses.", "quantifier": "all 525 function declarations, all 367 exported functions, all type arguments of generic functions", "why_tests_cant": "The Rust tests call the Rust functions directly and never go through the ST declarations; a wrong declaration corrupts arguments without any error.", "anchors": ["iec61131-st/*.st", "src/*.rs"]}
{"id": "C83", "title": "A generic function can be called with every type of its class", "statement": "For every generic function with one type parameter and every elementary type of the parameter's class, and for EXPT with every pair of types, there is code for the instance (an exported function or an ST body); an instance with its own declaration has the passing modes and representations of the generic declaration.", "quantifier": "all generic declarations, all types of their class", "why_tests_cant": "A missing instance is a link error only for the program that uses that type.", "anchors": ["iec61131-st/*.st", "src/*.rs"]}
{"id": "C84", "title": "ST functions give what the function they call gives", "statement": "ADD_LTIME, SUB_LDT_LDT, CONCAT_LTOD, LDT_TO_DATE and the other renamed functions return what the function they stand for returns, for all arguments; LEFT, RIGHT, MID, INSERT, DELETE, REPLACE and X_TO_STRING return what the corresponding _EXT function stores in its output; X_TO_WSTRING widens that text; CONCAT_DT is CONCAT_DATE_TOD of CONCAT_DATE and CONCAT_TOD; SPLIT_LTOD passes on the parts of SPLIT_TOD.", "quantifier": "all arguments, any behaviour of the external functions", "why_tests_cant": "Wrong argument order or a wrong callee in one of a hundred near-identical functions shows only for particular values; the ST functions are not covered by the Rust tests.", "anchors": ["iec61131-st/date_time_numeric_functions.st", "iec61131-st/date_time_extra_functions.st", "iec61131-st/date_time_conversion.st", "iec61131-st/string_functions.st", "iec61131-st/extra_functions.st", "iec61131-st/string_conversion.st"]}
{"id": "C85", "title": "String functions stay within their 2048-character result", "statement": "Called with strings that fit their parameters (up to 2048 units), LEFT, RIGHT, MID, INSERT, DELETE, REPLACE, CONCAT, STRING_TO_WSTRING and WSTRING_TO_STRING return the resulting text or abort; they never write outside the result variable.", "quantifier": "all strings of up to 2048 units, all lengths and positions, both string kinds", "why_tests_cant": "The tests use short strings in large buffers; an overrun is silent.", "anchors": ["iec61131-st/string_functions.st", "iec61131-st/string_conversion.st", "src/string_functions.rs", "src/string_conversion.rs"]}
{"id": "C86", "title": "String comparison sees the whole strings", "statement": "STRING_EQUAL(a, b), STRING_LESS(a, b) and STRING_GREATER(a, b), which implement the operators =, < and > on strings, give the result of EQ, LT and GT on the same strings.", "quantifier": "all pairs of strings, both kinds", "why_tests_cant": "Only strings longer than 80 units that agree in the first 80 differ.", "anchors": ["iec61131-st/string_functions.st:STRING_EQUAL, STRING_LESS, STRING_GREATER, WSTRING_EQUAL, WSTRING_LESS, WSTRING_GREATER"]}
{"id": "C87", "title": "Conversion between a character and a string", "statement": "CHAR_TO_STRING(c) (WCHAR_TO_WSTRING) is the string that consists of c alone; STRING_TO_CHAR (WSTRING_TO_WCHAR) is the first unit of the string.", "quantifier": "all characters, all strings, all contents of the neighbouring memory", "why_tests_cant": "Depends on the memory next to the parameter, which is usually zero in a test.", "anchors": ["iec61131-st/string_conversion.st:CHAR_TO_STRING, WCHAR_TO_WSTRING, STRING_TO_CHAR, WSTRING_TO_WCHAR"]}
{"id": "C88", "title": "A function gives the same result whichever argument type is chosen", "statement": "For each of MAX, MIN, LIMIT, CONCAT_DATE, CONCAT_TOD, IS_VALID_BCD, MUL and DIV of TIME: arguments that fit in two of the argument types give the same result and the same effects with both; SPLIT_DATE, SPLIT_TOD and SPLIT_DT return the same parts for every result type; MUL__TIME, MUL_TIME and MUL_LTIME (and DIV) of one type are the same function.", "quantifier": "all argument types and values, every platform", "why_tests_cant": "Each type has its own exported function, written out or generated; one wrong line among hundreds shows for one type only.", "anchors": ["src/date_time_numeric_functions.rs", "src/date_time_extra_functions.rs", "src/numerical_functions.rs", "src/types.rs", "src/validation_functions.rs"]}
{"id": "C89", "title": "EXPT uses the exponent it is given", "statement": "For REAL and LREAL operands EXPT(x, e) depends on the value of e only: an exponent of one type gives the result of the equal exponent of the other type, and different exponents are told apart when the powers differ.", "quantifier": "every base and exponent, whatever the platform's power function", "why_tests_cant": "Only LREAL exponents that are no REAL numbers behave differently.", "anchors": ["src/arithmetic_functions.rs:EXPT__REAL__LREAL, EXPT__LREAL__REAL, EXPT__REAL__REAL, EXPT__LREAL__LREAL"]}
{"id": "C90", "title": "Only the listed functions abort; all results are in range", "statement": "Every exported function on numbers (and arrays of numbers), called with values of its parameter types, returns a value of its result type and leaves values of their types in its output parameters, or aborts; the functions that can abort are CONCAT_DATE, CONCAT_TOD, CONCAT_DATE_TOD, DATE_AND_TIME_TO_DATE, the additions, subtractions, multiplications and divisions of TIME, and SHL and SHR in debug builds - and no others. SPLIT, DAY_OF_WEEK, ROL, ROR, LIMIT, MIN, MAX, SQRT, ROUND, EXPT, the bit and endianness conversions never abort.", "quantifier": "all 289 exported functions with numeric parameters, all arguments, both build profiles, all chrono and standard library generations, both byte orders", "why_tests_cant": "An abort takes the controller down; absence of aborts is a statement about all 2^64 arguments of each function.", "anchors": ["src/*.rs"]}
{"id": "C91", "title": "Instances of function blocks are independent", "statement": "In a program with any number of counters, timers, edge triggers and bistables at non-overlapping addresses, called in any order, every variable of an instance has the value that the calls of this instance alone would give; memory outside the instances is unchanged and interleaving adds no abort. Driven through memory by an ST program from zero-initialised instances, each of the 31 exported blocks has the outputs specified for its kind; an input left out of a call keeps its value.", "quantifier": "all programs (lists of calls of any length), all placements, memory contents, inputs and clock readings, both representations of the start time, both build profiles", "why_tests_cant": "The tests drive one instance at a time as a Rust value; interference needs the combination of many instances in one memory.", "anchors": ["src/counters.rs", "src/timers.rs", "src/flanks.rs", "src/bistable_functionblocks.rs", "iec61131-st/counters.st", "iec61131-st/timers.st", "iec61131-st/flanks.st", "iec61131-st/bistable_functionblocks.st"]}
{"id": "C92", "title": "Counters of different element types agree", "statement": "Two counters of the same kind and any two element types (also CTU and CTU_INT), given the same calls, have the same outputs in every build profile as long as the CV of neither leaves the range of the other's type.", "quantifier": "all histories, all pairs of element types of CTU, CTD and CTUD", "why_tests_cant": "Quantifies over all call histories of pairs of the 18 counter blocks.", "anchors": ["src/counters.rs:CTU ... CTU_ULINT, CTD ... CTD_ULINT, CTUD ... CTUD_ULINT"]}
{"id": "C93", "title": "Dates and times are ordered as the calendar and the clock are", "statement": "Of two results of CONCAT_DATE (CONCAT_TOD, CONCAT_DT) the one with the earlier fields - compared year, month, day, hour and so on - is smaller, and equal results have equal fields; SPLIT_DATE and SPLIT_DT are monotone, to the day and to the millisecond; SUB_DATE_DATE of two dates is k days exactly if k steps to the next calendar day lead from one to the other; MAX and MIN of dates give the latest and the earliest.", "quantifier": "all field values accepted, every pair of argument types of up to 32 bits, all timestamps, arrays of any length", "why_tests_cant": "Compares all pairs of dates over 585 years; leap years and month ends interact.", "anchors": ["src/date_time_extra_functions.rs:CONCAT_DATE__INT, CONCAT_TOD__INT, SPLIT_DATE__INT, SPLIT_DT__INT", "src/date_time_numeric_functions.rs:SUB_DATE_DATE", "src/types.rs", "src/utils.rs"]}
{"id": "C94", "title": "The texts of dates and times sort chronologically", "statement": "Comparing the texts that DATE_TO_STRING, TOD_TO_STRING or DT_TO_STRING (or the WSTRING forms) produce with LT, EQ and LE on strings gives the comparison of the days, of the times of day, or of the timestamps themselves, down to the nanosecond.", "quantifier": "all pairs of values of the date and time types", "why_tests_cant": "Sorting log entries by text relies on it; texts have 0, 3, 6 or 9 fraction digits depending on the value.", "anchors": ["src/extra_functions.rs:DATE_TO_STRING_EXT, DT_TO_STRING_EXT, TOD_TO_STRING_EXT", "iec61131-st/extra_functions.st", "src/string_functions.rs:LT__STRING, EQ__STRING, LE__STRING"]}
{"id": "C95", "title": "A string function depends on the texts it is given and on nothing else in memory", "statement": "Two calls of an exported string function whose numeric arguments are equal and whose string arguments hold the same text (whatever follows the terminator) give the same result or the same abort. A function with a destination stores the same units at its beginning whatever the destination held before, leaves the rest of it and all inputs unchanged, and returns 0.", "quantifier": "all exported functions with string parameters; all arguments, all memory contents behind the terminators, all destinations", "why_tests_cant": "Tests use fresh zeroed buffers; a function that reads stale memory passes them and fails when a variable is reused.", "anchors": ["src/string_functions.rs:LEN__STRING, FIND__STRING, LEFT_EXT__STRING, RIGHT_EXT__STRING, MID_EXT__STRING, INSERT_EXT__STRING, DELETE_EXT__STRING, REPLACE_EXT__STRING, CONCAT__STRING, CONCAT_EXT__STRING, GT__STRING, NE__STRING", "src/string_conversion.rs:WSTRING_TO_STRING_EXT, STRING_TO_WSTRING_EXT", "src/extra_functions.rs:BYTE_TO_STRING_EXT, STRING_TO_LINT, TIME_TO_STRING_EXT"]}
{"id": "C96", "title": "The string functions have a defined effect on malformed text", "statement": "Whatever a string argument holds, the effect of a string function is known. A STRING whose bytes are not UTF-8 makes every function that reads its characters abort (LEN, LEFT, RIGHT, MID, INSERT, DELETE, REPLACE, CONCAT, STRING_TO_WSTRING), whatever the other arguments are. In a WSTRING an unpaired surrogate counts as one character: positions and lengths refer to it like to any other character, and a call aborts exactly when such a character is among those to be written, unless what precedes it already overran the destination. FIND looks for the units and aborts only when the bytes before the match are not UTF-8. A string without terminating NUL is read beyond its memory.", "quantifier": "all memories, all unit sequences, all lengths and positions, all destinations, both build profiles", "why_tests_cant": "Malformed inputs are an unbounded set; a test picks a few broken sequences and one position.", "anchors": ["src/string_functions.rs: LEN__STRING .. CONCAT_EXT__WSTRING, FIND__STRING, FIND__WSTRING", "src/string_conversion.rs: STRING_TO_WSTRING_EXT"]}
{"id": "C97", "title": "Timers depend on time differences only and not on how often they are called", "statement": "TON, TOF and TP give the same outputs when all clock readings of a history are shifted by the same amount. Additional calls that repeat the level of IN, at any times and with any PT, do not change what later calls deliver: the scan rate of the program does not matter.", "quantifier": "all histories of calls, all clock readings, all shifts, any number and position of additional calls", "why_tests_cant": "It compares two infinite families of histories; a test runs one history at one scan rate.", "anchors": ["src/timers.rs: TON, TOF, TP", "iec61131-st/timers.st"]}
{"id": "C98", "title": "Blocks that are each other's mirror image behave so", "statement": "F_TRIG reports what R_TRIG reports for the inverted input (from the second call on), and counting the pulses of R_TRIG is counting the edges of its input. RS is SR with the inputs exchanged and the output inverted, and SR and RS agree while S and R are not TRUE together. CTUD with the down side unused delivers QU and CV as CTU does, with the up side unused QD and CV as CTD. TOF is TON with inverted IN and Q once IN has been TRUE, with the same ET.", "quantifier": "all histories, all counter types, both build profiles", "why_tests_cant": "Equivalence of two blocks over all call histories; tests check each block by itself on single histories.", "anchors": ["src/flanks.rs", "src/bistable_functionblocks.rs", "src/counters.rs: ctu, ctd, ctud", "src/timers.rs: TON, TOF"]}
{"id": "C99", "title": "Typed instances of a function have the formal parameters of the generic function", "statement": "A function declared for a particular type (CONCAT__STRING, EXPT__REAL__LREAL, SPLIT_DT__UINT) belongs to a declared generic function (CONCAT, EXPT, SPLIT_DT) and has the same parameter names, in the same order and of the same kind (input, output, by reference). So a call with named parameters that is legal for one type is legal for all. The generic functions name their parameters as IEC 61131-3 does (IN; IN1, IN2; IN, L, P; YEAR, MONTH, DAY; MN, IN, MX), so a call with named parameters is portable.", "quantifier": "all pairs of declarations in the library where one is an instance of the other", "why_tests_cant": "A test calls single instances, mostly positionally; that no instance deviates is a statement about all declarations.", "anchors": ["iec61131-st/*.st: FUNCTION declarations"]}
{"id": "C100", "title": "The conversion functions do what their names say and form a complete set", "statement": "Every declared function X_TO_Y, X and Y elementary types, has exactly one input, named IN, of type X, and result type Y. There is a conversion between any two of the eight integer types and two real types, between any two of the integer and bit-string types, and from BOOL to each of them. Every conversion between non-text types has a reverse.", "quantifier": "all declarations; all pairs of the 27 elementary types", "why_tests_cant": "Compile-time interface over hundreds of declarations; tests call the ones their author thought of.", "anchors": ["iec61131-st/num_conversion.st", "iec61131-st/bit_num_conversion.st", "iec61131-st/bit_conversion.st", "iec61131-st/date_time_conversion.st", "iec61131-st/extra_functions.st", "utils/code_gen.py"]}
{"id": "C101", "title": "Elementary functions compute what their names say, as accurately as the platform's mathematical library", "statement": "LN, LOG, EXP, SIN, COS, TAN, ASIN, ACOS and ATAN of a finite REAL or LREAL in the domain of the function return a number close to the natural logarithm, decimal logarithm, exponential, sine, cosine, tangent (radians) and their inverses; ATAN2(y, x) returns a number close to the angle of the point with abscissa x and ordinate y; EXPT with a REAL or LREAL exponent returns a number close to the power, for EXPT(LREAL, REAL) with the exact exponent and for EXPT(REAL, LREAL) with the nearest REAL exponent. Close means whatever the methods of Rust's f32 and f64 guarantee on the platform: the library adds no error and confuses no function, no format and no argument order.", "quantifier": "All platforms (any accuracy relation that the methods ln, log10, exp, sin, cos, tan, asin, acos, atan, atan2 and powf satisfy), all finite REAL and LREAL arguments in the domain", "why_tests_cant": "The domain is all floats, and the accuracy depends on a mathematical library that is not part of the code; a test compares a few values on one platform.", "anchors": ["src/arithmetic_functions.rs: LN__REAL ... ATAN__LREAL", "src/arithmetic_functions.rs: ATAN2__REAL, ATAN2__LREAL", "src/arithmetic_functions.rs: EXPT__REAL__REAL, EXPT__REAL__LREAL, EXPT__LREAL__REAL, EXPT__LREAL__LREAL", "iec61131-st/arithmetic_functions.st"]}
{"id": "C102", "title": "Every numeric library call returns a value of its declared type or is on an exact list", "statement": "A program that calls any library function without string parameters, by its declared name or by its generic name, with arguments of the declared types gets a value of the declared result type, and output variables keep values of their types. The only functions that can abort are the listed date, time-of-day and time arithmetic functions (dates that do not exist, results that cannot be represented); the only ones whose behaviour can be undefined are the truncating REAL and LREAL conversions outside the target range and SPLIT_LDT, which has no code. Each listed function does abort or is undefined for some arguments.", "quantifier": "all 371 declared functions without string parameters and all instances of the generic ones, all arguments of the declared types, both build profiles, all platforms whose clock and mathematical library are sane", "why_tests_cant": "A test calls one function with a few arguments; that no other argument makes any function abort or return a value outside its type needs all arguments of all functions, through the implicit conversions between the ST wrappers and the exported functions.", "anchors": ["iec61131-st/*.st", "src/arithmetic_functions.rs", "src/numerical_functions.rs", "src/date_time_numeric_functions.rs", "src/date_time_conversion.rs", "src/date_time_extra_functions.rs", "src/bit_shift_functions.rs", "src/types.rs", "src/endianness_conversion_functions.rs", "src/extra_functions.rs"]}
{"id": "C103", "title": "Numeric conversions and time scaling preserve order", "statement": "If one number is at most another, converting both (integer or TIME to REAL/LREAL, REAL/LREAL to an integer type or LREAL to TIME, TRUNC, ROUND, REAL to LREAL, LREAL to REAL including overflow to infinity) never gives results in the opposite order, whenever both conversions are defined. Multiplying or dividing TIME values by the same positive REAL or LREAL never reverses their order either, and for a non-negative TIME a larger factor never gives a smaller product and a larger divisor never a larger quotient, although the calculation rounds several times.", "quantifier": "all pairs of arguments of each conversion, all pairs of TIME values and positive finite REAL/LREAL factors, every supported way the standard library converts seconds to durations", "why_tests_cant": "An inversion would occur only between particular neighbouring values near rounding boundaries; tests compare single results with expected values, not all pairs, and there are 2^64 times and 2^32 or 2^64 factors.", "anchors": ["iec61131-st/num_conversion.st", "iec61131-st/date_time_conversion.st: LREAL_TO_TIME, TIME_TO_LREAL", "src/date_time_extra_functions.rs", "src/date_time_numeric_functions.rs: MUL/DIV by REAL and LREAL: checked_mul_time_with_f32, checked_div_time_by_f32, \u2026", "src/numerical_functions.rs: ROUND__REAL, ROUND__LREAL"]}
{"id": "C104", "title": "Using one string variable as source and destination", "statement": "A string function may be given one variable both as source and as destination, or overlapping memory, and the result is the same as with separate memory: LEFT, RIGHT and MID whenever the destination does not begin inside the source; DELETE in place; appending with INSERT or CONCAT in place; REPLACE in place when the replacement has as many characters and bytes as the beginning of what it replaces. INSERT in the middle in place, REPLACE in place by a longer text, LEFT to a place inside its source, and CONCAT with the destination as a later argument do not have this property; for CONCAT the exact result is stated (the destination then stands for the text written so far).", "quantifier": "all memories, all positions of sources and destination, all Unicode texts of both kinds, all lengths, positions and argument lists", "why_tests_cant": "Overlap depends on the relative positions and on the byte sizes of the characters involved: a test of one in-place call with ASCII text passes although a neighbouring position or a two-byte character gives a corrupted result.", "anchors": ["src/string_functions.rs: LEFT_EXT__STRING, RIGHT_EXT__STRING, MID_EXT__STRING, INSERT_EXT__STRING, DELETE_EXT__STRING, REPLACE_EXT__STRING, CONCAT_EXT__STRING, CONCAT__STRING", "src/string_functions.rs: EncodedCharsIter, CharsEncoder, CharsDecoder"]}
{"id": "C105", "title": "Changing the preset time of a running timer", "statement": "PT may be changed from call to call; the new value applies at once, measured from the original start, and the outputs of TON and TOF do not depend on the presets of earlier calls. For TP the exact outputs under arbitrary changes of PT are stated; that Q of TP rises only with a rising edge of IN holds for a constant PT and fails when PT is raised after the pulse.", "quantifier": "all call histories with arbitrary, changing preset times and any non-decreasing clock", "why_tests_cant": "A test changes PT at one moment of one run; the claim compares all pairs of histories that differ in their presets and covers changes before, during and after the pulse.", "anchors": ["src/timers.rs: TP, TON, TOF, TimerParams::is_in_preset_range, TimerParams::update_elapsed_time", "iec61131-st/timers.st: TP, TON, TOF"]}
{"id": "C106", "title": "Blocks wired together behave as their parts promise", "statement": "In a program that runs once per cycle: a TON with IN := NOT Q ticks for one call at a time, each tick coming in the first call at which PT has passed since the second call after the preceding tick, so the period is more than PT and at most PT plus three cycles. Two TON in series have Q TRUE only after the input was TRUE for longer than both preset times together, and then they do. A TON followed by a TOF (debouncer) has Q TRUE exactly when the input was TRUE for longer than the first preset time and no more than the second has passed since the end of that; shorter pulses never show. An R_TRIG with either bistable (SET := edge AND NOT Q, RESET := edge AND Q) inverts its output at every rising edge of the button.", "quantifier": "All numbers of cycles, all input sequences, all monotone clock readings below 2^63 ns, all constant PT in 0..2^63-1; for the toggle all start states and both bistables", "why_tests_cant": "The behaviour depends on feedback over an unbounded number of cycles and on all possible times between the calls; the unit tests exercise single blocks for a few calls.", "anchors": ["src/timers.rs: TON, TOF", "src/flanks.rs: R_TRIG", "src/bistable_functionblocks.rs: SR, RS"]}
{"id": "C107", "title": "An R_TRIG in front of CU makes CTU count every rising edge since the last reset", "statement": "If the input goes through an R_TRIG to CU, CV is the number of rising edges of the input since the last reset, up to the maximum of the type. (False: an edge in the first call after the reset is lost if the last call before the reset that was not itself a reset had an edge, too; in all other histories the count is right.)", "quantifier": "All histories of calls, all counter types, both profiles", "why_tests_cant": "The count depends on the whole history and on the levels in calls before the reset; the tests do not combine the blocks.", "anchors": ["src/counters.rs: CTU", "src/flanks.rs: R_TRIG"]}
{"id": "C108", "title": "Regenerating the numeric conversions does not change them", "statement": "Running the supplied generator and using its output as the numeric conversion file gives conversions X_TO_Y with the same names, parameters and result types as the library, and every one returns the same result for every argument.", "quantifier": "all 90 conversions between the ten numeric types, all argument values, in particular all REAL and LREAL values", "why_tests_cant": "no test runs the generator; the difference shows only for fractional arguments of 16 of the 90 functions", "anchors": ["utils/code_gen.py:types", "utils/code_gen.py:src", "iec61131-st/num_conversion.st:LREAL_TO_DINT", "iec61131-st/num_conversion.st:REAL_TO_SINT"]}
{"id": "C109", "title": "EXPT with an integer exponent: sign, order and accuracy", "statement": "EXPT of a REAL or LREAL base and a DINT exponent: (a) a base that is not NaN gives a value that is not NaN, negative exactly when the base is negative and the exponent odd; (b) exponent 0 gives 1.0 for every base, NaN included, any other exponent keeps NaN; (c) the opposite base gives the same power for an even exponent and the opposite power for an odd one; (d) over non-negative bases (zero and infinity included) the power never decreases as the base grows for exponents >= 0, and never increases for exponents < 0; (e) while the power stays in the range of normal numbers, the magnitude of base^n is within n-1 relative roundings of the exact power, and base^(-n) within one more rounding of the reciprocal.", "quantifier": "every REAL/LREAL base (bit patterns of all kinds) and every DINT exponent", "why_tests_cant": "2^32 or 2^64 bases times 2^32 exponents; order and accuracy relate pairs of values and real numbers that no sample of calls settles", "anchors": ["src/arithmetic_functions.rs: EXPT__REAL__DINT, EXPT__LREAL__DINT", "iec61131-st/arithmetic_functions.st: EXPT"]}
{"id": "C110", "title": "A call of a string function by its generic name does what the standard says, for STRING and WSTRING", "statement": "A program that calls LEFT, RIGHT, MID, DELETE, INSERT, REPLACE, CONCAT, LEN, FIND, GT/GE/EQ/LE/LT/NE, the functions behind the comparison operators or the STRING/WSTRING conversions with arguments of type STRING (or WSTRING) gets a value of the declared type that holds exactly the text (number, truth value) the standard defines, counted in characters, whichever Rust function the generic call resolves to; LEFT, RIGHT, MID and DELETE abort outside the range; INSERT, REPLACE and CONCAT return exactly the results of at most 2048 units.", "quantifier": "all texts (any Unicode characters), memories that hold them, lengths and positions, numbers of arguments, both kinds of string, all platforms", "why_tests_cant": "The call passes through generic resolution, the ST wrapper, the mangled external name and the Rust code; tests call particular strings through one of these.", "anchors": ["/repo/iec61131-st/string_functions.st", "/repo/src/string_functions.rs", "/repo/iec61131-st/string_conversion.st", "/repo/src/string_conversion.rs", "/repo/iec61131-st/*.st (declarations of the generic functions)"]}
{"id": "C111", "title": "Numbers, times and dates become text and are read back through the functions a program calls", "statement": "X_TO_STRING and X_TO_WSTRING called by name return, for every BYTE, DWORD, LWORD, DINT and LINT, the canonical decimal numeral, for every TIME that is not negative, DATE, TOD and DT (and the L-variants) a text that denotes it, for every finite REAL the fixed or exponential text; STRING_TO_DINT/LINT accept exactly the numerals in range and abort otherwise, STRING_TO_REAL/LREAL round the number correctly; reading back what was written gives the same integer, or a REAL within the printed precision.", "quantifier": "all values of these types, all memories and texts, both kinds of string, all platforms", "why_tests_cant": "Ranges of 2^32 to 2^64 values and unboundedly many texts; the wide conversions nest three calls with a shared buffer.", "anchors": ["/repo/iec61131-st/extra_functions.st", "/repo/src/extra_functions.rs"]}
{"id": "C112", "title": "String expressions obey the laws of text editing", "statement": "In expressions that nest the string functions, the result of one call is passed on to the next unchanged: LEFT(CONCAT(a,b),LEN(a)) is a, RIGHT(CONCAT(a,b),LEN(b)) is b, CONCAT is associative and adds lengths, CONCAT(LEFT(a,n),RIGHT(a,m)) and CONCAT(LEFT(a,n),MID(a,m,n+1)) restore a, DELETE undoes INSERT and MID finds what was inserted, REPLACE is INSERT after DELETE, MID(a,LEN(b),FIND(a,b)) is b if b occurs in a, REPLACE at FIND replaces and DELETE at FIND removes the first occurrence (MID and DELETE abort there if it does not occur), LEFT of LEFT is LEFT, MID is RIGHT of LEFT, INSERT at LEN(a) appends and at 0 prepends, FIND finds inserted or appended text no later than where it was put, EQ(LEFT(a,LEN(b)),b) tells whether a begins with b and EQ(RIGHT(a,LEN(b)),b) whether it ends with it (aborting if a is the shorter one), a is less than CONCAT(a,b) for LT and GT if b is not empty (for the function behind the operator < only if a has fewer than 80 units), and converting to the other kind of string and back restores the text.", "quantifier": "all variables holding texts whose results fit 2048 units, all positions, both kinds of string, all platforms", "why_tests_cant": "Laws relate several calls for all texts; multi-unit characters make counting errors visible only for particular texts.", "anchors": ["/repo/iec61131-st/string_functions.st", "/repo/src/string_functions.rs", "/repo/iec61131-st/string_conversion.st", "/repo/src/string_conversion.rs"]}
{"id": "C113", "title": "A program that takes a date or time apart and puts it together gets it back, whatever integer type and variables it uses", "statement": "Executing SPLIT_DATE, SPLIT_TOD, SPLIT_LTOD or SPLIT_DT with variables of one of the integer types INT, UINT, DINT, UDINT, LINT, ULINT assigns the calendar day and the time of day to exactly these variables, and the corresponding CONCAT of these variables is the value again (to the millisecond; to the day for a DATE), except that a date whose midnight lies before the representable range aborts. Conversely SPLIT of what CONCAT made gives the arguments back, whatever integer types the two calls use.", "quantifier": "all values of DATE, TOD, LTOD, DT, all environments with distinct typed variables, all integer types, all platforms", "why_tests_cant": "2^64 values times types and variable assignments; the calls pass through generic resolution, by-reference outputs and nested ST bodies.", "anchors": ["/repo/iec61131-st/date_time_extra_functions.st", "/repo/src/date_time_extra_functions.rs"]}
{"id": "C114", "title": "The calendar in calculations: days, months, years and weekdays fit together", "statement": "ADD and SUB of times and dates by their generic names are exact or abort; adding k times 24 hours to a DT moves its calendar day by k days and leaves its clock; the difference of two dates made by CONCAT_DATE is the number of days between them (or an abort beyond the TIME range); from the first of a month to the first of the next are as many days as the month has, from New Year to New Year 365 or 366; DAY_OF_WEEK advances by one each day, dates 400 years apart fall on the same weekday; CONCAT_DATE accepts the 29th of February exactly in leap years.", "quantifier": "all dates and times, all numbers of days, years and months in range, all integer argument types, all platforms", "why_tests_cant": "Relates several library calls over 213,504 days, any clock time and all argument types.", "anchors": ["/repo/iec61131-st/date_time_numeric_functions.st", "/repo/src/date_time_numeric_functions.rs", "/repo/iec61131-st/date_time_extra_functions.st", "/repo/src/date_time_extra_functions.rs"]}
{"id": "C115", "title": "Nested calls in an expression obey the laws of arithmetic", "statement": "In an expression of a program that calls the functions by their generic names: a conversion between integer and bit string types gives the value if the target type has it and the residue modulo the size of the type otherwise; a detour through a type that is at least as wide as the target or has the value makes no difference, and converting there and back gives the value again, also for integers up to 2^24 (2^53) through REAL (LREAL), for REAL through LREAL and for bit patterns between DWORD and REAL, LWORD and LREAL. Opposite rotations cancel and equal ones add up; shifts add up, and shifting out and back clears exactly the bits shifted out; a rotation consists of two shifts. Nested MAX (MIN) calls are one MAX (MIN) call, in any order of the arguments; MAX and MIN absorb each other and distribute; LIMIT is MAX of MIN and MIN of MAX. MUL and DIV of a TIME by an integer undo each other up to the remainder, ADD and SUB undo each other, ADD is commutative and associative and MUL distributes over it while everything is representable. A DT is put together again from its date and its time of day.", "quantifier": "All variables and values of the types, all types of the families, all distances, all numbers of arguments, all platforms.", "why_tests_cant": "The laws relate several calls over the full value ranges of all combinations of types (144 pairs of types for the conversions alone, variable numbers of arguments); tests evaluate single expressions.", "anchors": ["iec61131-st/num_conversion.st, bit_conversion.st, bit_num_conversion.st", "src/bit_shift_functions.rs: ROL, ROR, SHL, SHR", "iec61131-st/selectors.st: MAX, MIN, LIMIT", "src/date_time_numeric_functions.rs: ADD, SUB, MUL, DIV", "src/endianness_conversion_functions.rs", "src/date_time_conversion.rs"]}
{"id": "C116", "title": "Expressions with REAL and LREAL, nested to any depth, have the values of real arithmetic", "statement": "In any expression of a program: ABS, MAX, MIN, LIMIT and REAL_TO_LREAL of finite numbers are exact; ROUND and the conversions to integers give the nearest integer and TRUNC the integer part; conversions of integers and times, LREAL_TO_REAL, SQRT and squares are correctly rounded (for values whose square is in the normal range); integers of 24 (53) bits and times of 2^53 ns survive the way through REAL (LREAL); the root of the (rounded) square of a number is exactly its absolute value; the square of a root is off by at most 4 roundings; LIMIT is MAX of MIN; nested MAX is flat MAX; TIME times or divided by a number is within the documented error of the exact result.", "quantifier": "All variable environments, all argument expressions (of any depth) with finite values, both floating point types, all integer types, all platforms.", "why_tests_cant": "There are 2^32 or 2^64 values per variable and infinitely many expressions; whether a composition of rounded operations is exact (root of square) depends on every bit of the operands.", "anchors": ["iec61131-st/numerical_functions.st ABS, ROUND, TRUNC", "iec61131-st/arithmetic_functions.st SQRT, EXPT", "iec61131-st/num_conversion.st", "iec61131-st/extra_functions.st LREAL_TO_TIME, TIME_TO_LREAL", "src/arithmetic_functions.rs SQRT, EXPT", "src/numerical_functions.rs ROUND", "src/types.rs limit, max, min", "src/date_time_numeric_functions.rs MUL__TIME, DIV__TIME"]}
{"id": "C117", "title": "Counters and edge triggers wired together keep count", "statement": "In a program that runs once per cycle: two CTU in cascade (the first is reset by its own Q and has PV := n, the second counts the Q of the first) hold the remainder and the quotient by n of the number of rising edges of the input, and the first Q is TRUE for one cycle at every n-th edge, provided the input is nowhere FALSE for a single cycle only; never is an edge counted twice. Without that proviso edges are lost: of pulses of one cycle with one cycle in between, every (n+1)-th is lost, so that the circuit divides by n+1. A CTD that loads itself again divides by n in the same way. R_TRIG behind R_TRIG or F_TRIG changes nothing, F_TRIG behind R_TRIG delays its pulses by a cycle, R_TRIG OR F_TRIG reports every change of the input, and a bistable set by R_TRIG and reset by F_TRIG rebuilds the input.", "quantifier": "All numbers of cycles, all input sequences, all five counter types for either counter, all n from 1 to the maximum of the type, both build profiles, both bistables", "why_tests_cant": "Feedback from Q to R over unboundedly many cycles; the loss of edges shows only for inputs that change in the very cycle of the reset, and only after n pulses.", "anchors": ["src/counters.rs: CTU, CTD", "src/flanks.rs: R_TRIG, F_TRIG", "src/bistable_functionblocks.rs: SR, RS"]}
{"id": "C118", "title": "Timers wired to each other, to triggers and to a latch keep time", "statement": "In a program that runs once per cycle: on(IN := NOT off.Q, PT := p1); off(IN := on.Q, PT := p2) generates pulses: on.Q becomes TRUE in the first cycle more than p1 after the start of the pause, stays TRUE up to the first cycle more than p2 later, and is FALSE in the cycle after that, for ever. A TON fed with NOT of R_TRIG's Q (watchdog) has Q TRUE exactly if no rising edge has come for longer than PT. A TOF fed with R_TRIG's Q is a pulse that every edge starts again. An SR set by a TON's Q and reset by an acknowledge input is TRUE exactly if the input was TRUE for longer than PT and was not acknowledged in any cycle since. A TP fed with R_TRIG's Q aborts in the first cycle unless the input is TRUE there; then it gives one pulse of PT; the next edge gives none, and two cycles after it the program aborts, unless an edge comes in just that cycle.", "quantifier": "All numbers of cycles, all input sequences, all monotone clock readings below 2^63 ns, all constant PT in 0..2^63-1", "why_tests_cant": "The statements range over all histories and all spacings of the calls, with feedback between the blocks; the unit tests exercise single blocks for a few calls with fixed times.", "anchors": ["src/timers.rs: TON, TOF", "src/flanks.rs: R_TRIG", "src/bistable_functionblocks.rs: SR"]}
{"id": "C119", "title": "Nested expressions mean what their parts mean", "statement": "There is a short reference of the functions (conversions between integer, bit string and floating point types, shifts, rotations, byte order, MAX, MIN, LIMIT, BCD check, sums, differences and multiples of times under all their names, times and dates as numbers and back, conversions to and from BOOL, dates, timestamps and times of day put together from their parts and taken apart, all string functions, numbers, times and dates (also the L types) as text and back, characters, floating point numbers as text and back, ABS, ROUND, TRUNC, SQRT, exact powers, times as LREAL and back, times multiplied and divided by floating point numbers as far as nothing is rounded, IS_VALID), one line each: what the function yields for arguments of given meanings, and for which arguments it aborts. An expression of any depth built from variables and these functions has exactly the value that follows from the reference; if a call in it is one the reference says to abort, the whole expression aborts. No expression has two meanings or both has a meaning and aborts. For expressions of integers, bit strings, times and dates the reference is complete: every correctly typed expression has a value of its type, given by the reference, or aborts, and it aborts exactly if the reference says so; nothing undefined happens.", "quantifier": "all expressions of any depth and number of arguments, all contents of the variables, all platforms (debug and release builds, byte orders, versions of chrono)", "why_tests_cant": "The number of expressions is infinite and a test evaluates one; that the meaning of a nested call depends only on the meanings of its arguments, for every build and platform, is a statement by induction over all expressions.", "anchors": ["iec61131-st/*.st", "src/arithmetic_functions.rs", "src/bit_shift_functions.rs", "src/endianness_conversion_functions.rs", "src/types.rs", "src/date_time_numeric_functions.rs", "src/date_time_conversion.rs", "src/string_functions.rs", "src/string_conversion.rs", "src/extra_functions.rs", "src/validation_functions.rs"]}
{"id": "C120", "title": "Nested expressions have a type, values of that type, and fail only through listed functions", "statement": "Give an expression that nests calls of the library's functions without string parameters (direct calls, generic calls, MAX and MIN of any number of arguments; integers and floating-point numbers are converted to the declared parameter types) the type that the declarations determine. The type and the functions called are unique. Evaluated with variables that hold values of their types, the expression has a value of its type, or one of the functions it calls is in the lists of functions that can abort or be undefined (C90, C102). A sequence of assignments of such expressions keeps a value of its type in every variable, in every number of repetitions, if none of the functions is listed.", "quantifier": "all typed expressions of any depth, all programs of assignments of any length, all numbers of cycles, all values of the variables, both build profiles and all platforms", "why_tests_cant": "Expressions and programs are unboundedly many; a test suite calls functions one at a time.", "anchors": ["iec61131-st/*.st (all FUNCTION declarations)", "src/arithmetic_functions.rs", "src/date_time_numeric_functions.rs", "src/types.rs", "src/bit_shift_functions.rs", "iec61131-st/num_conversion.st"]}
{"id": "C121", "title": "Programs that compute with expressions and call function blocks", "statement": "In a typed program that assigns nested expressions to variables, takes dates and times apart into variables (SPLIT_DATE, SPLIT_TOD, SPLIT_LTOD, SPLIT_DT) and calls instances of function blocks in any order, every variable keeps a value of its type through any number of cycles, and only the listed functions and the pulse timers can stop it. What an instance does depends only on the values its input expressions had when it was called: a counter counts the edges of its expression from call to call of that instance, a trigger reports the change since its own last call, a bistable keeps its last set or reset, and a timer measures with the clock of its own calls, whatever the program does in between with other instances and variables.", "quantifier": "all programs over the numeric and date functions and the 31 block types, all placements of instances, all starting values, all clocks that do not run backwards, any number of cycles", "why_tests_cant": "Tests call one block or one function at a time; a program interleaves them over unboundedly many cycles.", "anchors": ["src/counters.rs", "src/timers.rs", "src/flanks.rs", "src/bistable_functionblocks.rs", "iec61131-st/counters.st", "iec61131-st/timers.st", "iec61131-st/flanks.st", "iec61131-st/bistable_functionblocks.st"]}
{"id": "C122", "title": "Texts whose lengths are bounded by the program never run over their memory", "statement": "Give every STRING and WSTRING variable of a program a largest length. Bound the length of every expression: LEFT, RIGHT and MID do not lengthen a text, INSERT, REPLACE and CONCAT add the lengths, STRING_TO_WSTRING keeps and WSTRING_TO_STRING at most triples the units, a printed DINT has at most 11, DELETE does not lengthen a text except that release builds nearly double it if the length argument may be negative. If all these bounds are within the 2048 units of a result, every evaluation, for any contents of the variables and any positions and lengths, returns a valid text within the bound or aborts; nothing is read or written outside a string. LEN and FIND are never negative, comparisons are TRUE or FALSE. A program of such assignments, each within the length of its variable, keeps all this for any number of cycles. The doubling and the tripling are reached by some texts.", "quantifier": "all expressions of any depth built from LEFT, RIGHT, MID, DELETE, INSERT, REPLACE, CONCAT, the conversions between STRING and WSTRING, DINT_TO_STRING, LEN, FIND, STRING_TO_DINT, MAX, MIN and the comparisons; all programs of assignments of them and any number of cycles; all texts, positions and lengths; both builds and all platforms", "why_tests_cant": "a test evaluates one expression with one set of texts; that no text of the declared lengths, no position and no depth of nesting overruns a buffer is a statement about all of them", "anchors": ["iec61131-st/string_functions.st: LEFT, RIGHT, MID, CONCAT, INSERT, DELETE, REPLACE, LEN, FIND", "src/string_functions.rs", "iec61131-st/string_conversion.st"]}
{"id": "C123", "title": "Whole programs: numbers, dates, texts and function blocks together", "statement": "A program is a list of assignments of nested expressions, of statements that take a date or time apart into variables, and of calls of function block instances, over variables of numeric, bit, date and time types and of STRING and WSTRING, where for every text variable a bound on its length is known and for some DINT variables that they are not negative. If every statement keeps to the types and bounds (text functions fed within the 2048-unit buffer, comparisons and conversions between texts and values included), then: every execution keeps every variable within what is known of it; it is stopped only by a statement that calls a function or block listed as one that aborts (out-of-range position, malformed literal, overflow, TP called first with IN FALSE) or as undefined; a program that calls none of these runs for any number of cycles; each instance behaves as if only its own calls had been made, with the inputs its expressions had at these calls, so that counters count the edges, edge detectors report them, bistables keep them and timers measure them, also where the inputs are computed from texts.", "quantifier": "all programs over all functions and blocks of the library that fit the rules, all variables, all clocks that do not go back, all placements of the instances in zeroed memory, both build profiles, both representations of the clock option", "why_tests_cant": "Tests run single functions on single values; whether arbitrary compositions of text functions, conversions and stateful blocks over any number of cycles stay within memory and types is a statement about infinitely many programs and executions.", "anchors": ["iec61131-st/*.st", "src/string_functions.rs: LEFT, RIGHT, MID, DELETE, INSERT, REPLACE, CONCAT, LEN, FIND, comparison", "src/string_conversion.rs", "src/extra_functions.rs", "src/counters.rs", "src/timers.rs", "src/flanks.rs", "src/bistable_functionblocks.rs"]}
{"id": "C124", "title": "Programs refine a reference semantics without bytes and memory", "statement": "A reference semantics is given for programs of assignments, SPLIT statements and function block calls: variables hold numbers, rounded reals or texts; an expression denotes what IEC 61131-3 says of its functions; an assignment to a variable of another numeric type keeps the lowest bits or rounds; the parts of a date or time are those of the calendar and the clock; a function block instance is nothing but the list of its past calls, and its outputs are defined from that list alone (edges counted and clamped, latest set or reset, time since the input last changed). Every program that has a meaning there runs without abort and undefined behaviour and ends with exactly those variables and those instance outputs; a program which the reference says is stopped (an overflow, an invalid date, a pulse timer called with IN FALSE while it remembers no pulse) aborts; the meaning is unique; and every well-typed program over integers, bit strings, times, dates and all function blocks, with any presets, has a meaning or is stopped, so for these the reference says exactly what happens.", "quantifier": "All programs (lists of assignments of nested expressions, of calls that take dates and times apart and of function block calls with expression inputs and output assignments, with their clock readings), all sets of non-overlapping instances, all initial variables, all bytes of memory outside the instances, both profiles, both byte orders, and every representation of STRING arguments.", "why_tests_cant": "Tests call one function or one block at a time with literals; agreement of whole programs with an independent definition of their meaning, over every nesting, interleaving and history, is a simulation proof.", "anchors": ["src/counters.rs", "src/timers.rs", "src/bistable_functionblocks.rs", "src/flanks.rs", "src/arithmetic_functions.rs", "src/string_functions.rs", "src/date_time_numeric_functions.rs", "iec61131-st/counters.st", "iec61131-st/timers.st", "iec61131-st/selectors.st", "iec61131-st/string_functions.st"]}
{"id": "C125", "title": "Programs with bounded texts and real numbers do exactly what the reference says", "statement": "Take a program of assignments, SPLIT statements and function block calls whose variables are integers, bit strings, times, dates, texts with a known bound on their length and real numbers with known bounds, and whose expressions (conversions, shifts, selection, arithmetic of times, all text functions, numbers and dates as text and back, comparison of texts; rounding, square root, extremes and conversions of real numbers) keep within the bounds. The reference semantics of C124, which knows no bytes and no memory, then says everything: if the run finishes, the final variables and block outputs are those of the reference and every text and real number is within its bounds; the run aborts exactly if the reference says that it is stopped; undefined behaviour never happens. This includes negative lengths in release builds and times before the zero point.", "quantifier": "All platforms and build profiles, all layouts of instances, all starting values within the bounds, all programs and call times.", "why_tests_cant": "Whether the reference leaves a gap - a value of an argument for which it says neither a result nor an abort - and whether texts that are joined, inserted and printed in a loop ever pass the end of their variable, concerns all values and all programs.", "anchors": ["src/string_functions.rs", "src/string_conversion.rs", "src/extra_functions.rs", "src/date_time_numeric_functions.rs", "src/counters.rs", "src/timers.rs", "iec61131-st/string_functions.st", "iec61131-st/string_conversion.st", "iec61131-st/extra_functions.st"]}
