# go-edtf: formal model and proofs

Target: `sfomuseum/go-edtf` as pinned in `/repo` (Go).  Prover: Coq 8.16.1.
Sources: `rocq/theories/*.v`, built with
`cd rocq && coq_makefile -f _CoqProject -o Makefile && make -j4`.

## 1. Approach

The library is a pure function from byte strings to dates or errors, so the
model is a set of total Gallina functions, one per Go function, over
`list ascii` (a Go string is a byte sequence, so `forall s : str` ranges over
exactly all Go strings).

* **Results.** `res A = OK a | Err e | Panic`.  A Go error is a value, a Go
  run-time panic is the explicit outcome `Panic`.
* **Integers.** Go `int` is 64 bit.  Values are `Z`; arithmetic that can leave
  the 64 bit range on reachable inputs is wrapped explicitly (`wrap64`).
* **Regular expressions.** The pattern constants of `re/re.go` are copied as
  *strings* and compiled inside Coq by a model of Go's `regexp/syntax` parser
  (the subset of the syntax used, including the scope rules of `(?i)` and the
  precedence of `|` against `^`/`$`).  Matching is leftmost-first backtracking
  with sub-match extraction, as Go documents.  Matching is by byte; this agrees
  with Go's by-rune matching because every class is ASCII except the case fold
  of `s`, which also matches U+017F (bytes C5 BF), and this is modelled.
* **time.** `time.Time` is modelled as UTC Unix seconds (`Z`).  `time.Date`,
  `Time.Date`, `AddDate`, `Format(RFC3339)`, and `time.Parse` for the layout
  elements the code uses are modelled; day counting follows Go's 400/100/4/1
  year cycle algorithm.  The limits on time zone offsets (24 hours, 60 minutes)
  are those of Go 1.20 and later; `go.mod` asks only for 1.16 and earlier
  releases take any two digits.
* **math/big.** `ParseFloat(_, 10, 0, ToNearestEven)` is modelled with its
  64 bit mantissa, its 128/192 bit powers of five and its exponent limits;
  `Float.Int` and `Int.Int64` (low 64 bits) likewise.
* **Specifications** (`Spec*.v`) are written without the model's helpers: the
  Gregorian rules, a day number characterised by "1970-01-01 is 0, the next day
  is one more", decimal renderings, grammars as explicit string shapes.

## 2. Trusted base

1. Coq's kernel (and `vm_compute`, which is part of it).
2. Axioms: every property theorem is followed by `Print Assumptions`; see
   section 6 for the list.
3. The reading of Go semantics by the model.  Modelled parts and simplifications
   are listed in section 3 and next to each definition.

## 3. What is modelled

| Go | Coq | notes |
|---|---|---|
| `edtf.go`, `errors.go`, `precision.go`, `deprecated.go`, `date.go`, `daterange.go`, `datespan.go`, `ymd.go`, `timestamp.go` | `Edtf.v` | pointers are values (`option` for nil) |
| `Error()` methods, also those of `strconv.NumError`, `time.ParseError` and `big.Float` | `ErrText.v` | quoting of unprintable bytes not modelled: what is quoted is proved to be digits and `+-:TXZEe` |
| `String()` methods of the same files and of `common/range.go` | `Debug.v`, `DebugCommon.v` | |
| `re/*.go` | `Regex.v` (engine), `Patterns.v` (constants) | pattern strings verbatim |
| `calendar/calendar.go` | `Calendar.v` | |
| `common/*.go` | `Common.v` | |
| `level0/*.go`, `level1/*.go`, `level2/*.go` | `Level0.v`, `Level1.v`, `Level2.v` | test tables (`tests.go`) are replayed in `ModelTests.v` |
| `parser/parser.go`, `cmp/*.go`, `unix/range.go` | `Parser.v` | |
| `parser.ParseString` and all it calls, with objects and pointers | `Heap.v` | see *Pointer aliasing* below |
| JSON struct tags, stdlib `encoding/json` | `Json.v` (trees and printed text), `JsonText.v` (reader of the text; proved to read exactly RFC 8259, `SpecJsonText`) | struct members are found by exact name, the last one winning; Go's rules for arbitrary texts are in the next row |
| `json.Unmarshal` of any text into a `*EDTFDate`, `json.Marshal` of any such pointer, the methods of `edtf.go` on it | `JsonDoc.v` (trees with strings as written, nesting limit, `unquote` with U+FFFD for invalid UTF-8), `Unmarshal.v` (letter case of names, merging of duplicate members, null, nil pointers) | error texts not modelled; names are folded as `encoding/json` does since Go 1.21 |
| `cmd/parse`, `cmd/matches`, `cmd/parse-wasi`, `cmd/parse-wasm` | `Cmd.v` | standard output, how the run ends and with which message, how the promise is settled; `flag.Parse` for tools without flags; the usage text is not modelled |
| `cmd/server-wasm` up to `http.ListenAndServe`, stdlib `flag`, `strconv.ParseInt` with base 0, `net.SplitHostPort` | `Server.v`, `Quote.v` (`%q`) | the table of printable characters (`strconv.IsPrint`) is a parameter; the port is not checked against 65535 |
| `app/server/www/index.html`, `javascript/index.js` | `Web.v` | what stands in the result element after each click, once the program is loaded; `JSON.parse` is the reader of RFC 8259, `JSON.stringify` is modelled for integers up to 2^53 and objects without equal or numeric names; that a panic ends the program is read off `sfomuseum.golang.wasm.bundle.js` |
| `cmd/server-wasm` from `http.ListenAndServe` on, `app/server/www/www.go`, `wasm/wasm.go`, stdlib `net/http` (`ServeMux`, `StripPrefix`, `FileServer`), `embed`, `path` | `Site.v` | as of Go 1.21 (`go.mod`); GET requests, decoded paths that are written in the usual way; answers are the file sent, the names listed, the place of a redirect or the status, not headers and bytes; a client that follows redirects by RFC 3986; the programs in `wasm` are a parameter, since the Makefile builds them |
| targets of requests: stdlib `net/url` (`ParseRequestURI`, escapes), `net/http` (`Redirect`, `StripPrefix` on `RawPath`, `localRedirect`) | `Target.v` | targets that begin with a slash (not `*`, not full URLs), written with any escapes and any query; the client drops fragments of locations |
| `tests/tests.go` | `Support.v` | the checker used by the repository's tests |
| stdlib `strings`, `strconv`, `sort`, `fmt.Sprintf` (used verbs) | `GoStr.v` | |
| stdlib `time` (used subset) | `GoTime.v` | |
| stdlib `math/big` (used subset) | `GoBig.v` | for the texts that the parser hands over |
| `common/exponential.go` for any text, stdlib `big.ParseFloat` with base 10 | `BigText.v` | proved equal to the model in `Common.v` on the texts of the parser (C78) |

Not modelled: listening, HTTP itself (headers, methods other than GET),
the JavaScript runtime apart from what `Web.v` states, local time zones (the code converts to UTC at once),
nanoseconds (never observable in the results of parsing; a direct call of `TimeWithYMD`
with a fraction of a second keeps it in Go, in the model and in C75 it is dropped), memory and time limits (the
model gives an answer where Go might run out of memory on huge exponents).

Pointer aliasing: the model above uses values for pointers.  `Heap.v` models the
parser a second time with objects (`DateRange`, `Date`, `YMD`), allocation and
assignment through pointers, and C77 proves that it gives the same outcomes, that
results never share an object with anything older, and what is shared inside one.
Timestamps (one per Date) and DateSpans (they do not leave the parser) are values
there too.  Objects made by `json.Unmarshal` are not modelled as objects, nor are
concurrent assignments.

## 4. Properties

The list is `properties.jsonl`; the status of each is in `MANIFEST.json`.
Where the statement is false of the code, the theorem `..._refuted` gives a
witness input and `..._partial` proves the part that does hold.

* **C01, C02** ParseString/Matches/IsValid for all strings: case analysis of the dispatch; no regex reasoning needed.
* **C03** refuted by `1985 garbage` (Level 2 pattern lacks `$`) and `201x` (`(?i)` leaks); the exact sets of valid and of named strings are given.
* **C04** refuted by `1950S5` (slice bounds) and `Y1E999999999` (nil big.Int); partial: a panic implies the string is a significant-digits or exponential form, with the exact condition for the former; for exponential years the limit on the value is located to within the rounding of a 64-bit mantissa, and in decimal exponents between 646456992 and 646456993.
* **C05-C08** symbolic evaluation of the parser on every rendered date; calendar facts from `CalFacts.v`.
* **C09, C10** the same for date-times; C10 refuted by offsets crossing a year boundary, partial for offset zero / same year, and the exact value otherwise.
* **C11, C12** composition lemmas for `DateSpanFromEDTF`.
* **C13, C14** refuted through `ParseString` because the season pattern matches any `YYYY-MM...` prefix; partial: the feature parsers and year-only forms, and what happens to the others.
* **C15, C16** flags computed for every choice of qualifiers.
* **C17, C18** digit ranges; C18 refuted for month `0X`, partial for all other masks.
* **C19, C20** all years in the ranges the code supports; refuted outside them.
* **C21-C23** letter-prefixed, exponential, significant digits, unbounded digit strings; C22 refuted by 64 bit wrap-around; which year wraps to is proved for every size.
* **C24, C25** sets; C24 refuted for negative years, overlapping members and open sides, partial for lists of non-negative dates of any precision.
* **C26-C30** invariants of every successful parse, by following the construction of the bounds.
* **C31-C36** comparison API on arbitrary dates / strings.
* **C37-C40** calendar and YMD helpers for all integers / strings.
* **C41-C46** spellings, flags, JSON (trees and bytes), errors.
* **C47, C50** precision and unspecified flags: refuted, with the exact behaviour proved.
* **C48, C49** languages of the regular expressions as explicit grammars.
* **C51, C52** error payloads, command framing (the tool's output is one JSON array).
* **C53** the members of the JSON objects.
* **C54-C57** level 0 dates as periods: no gaps, nesting, order and overlap.
* **C58** month lengths for all integers and all strings; refuted for months that do not exist.
* **C59, C60** texts of errors and values: what can be recovered from them.
* **C61, C62** the test checker and the matches tool (every run, as an equivalence).
* **C63** the converse of C18: the span of a mask is no wider than what it stands for; refuted for days with one X after a given month.
* **C64** which feature wins where forms overlap; refuted by `1985-04-12?`, which is reported as a season; the order is proved.
* **C65** one reading per feature, as an inductive relation; the parser accepts exactly the strings that have a reading, with its bounds.
* **C68** every field of every result, as an equivalence with the small grammar of `SpecWhole`.
* **C69** the error of every rejected string and every panic, as an equivalence with the rules of `SpecRefused`; excepted are notations so close to the largest floating point number that the rounding of powers of five decides.
* **C70** pairs of notations for the same time: same outer bounds, interchangeable in all comparisons.
* **C71** every exported feature and level parser, called directly: results, errors and panics for every string (SpecDirect).
* **C72** IsAfter, IsBefore, IsBetween, DeriveRanges: values, errors and panics for all strings (SpecCompare).
* **C73** the text of every error, as an equivalence with the rules of `SpecMessage`.
* **C74** every run of the tools from the command line, flag parsing included; refuted by negative years, which are taken for flags.
* **C75** every answer and every error of the exported helpers of `common` and `calendar`, called directly with any arguments.
* **C76** which JSON texts are read as a date, the round trip for any bytes, the methods on dates with nil pointers.
* **C77** the parser on objects: same outcomes as on values, no sharing between results, exact sharing inside one.
* **C78** `ParseExponentialNotation` for any text: which texts are refused, which crash, and the whole part of the number for the others.
* **C79** the command line of the server: the address or the fault and its message (SpecQuote.v) for every list of arguments, and which hosts it can start with; refuted for ports with leading zeros.
* **C80** marks of uncertainty and approximation never move the outer bounds of an accepted string nor its comparisons; refuted for a complete date with a mark behind it, which means its month.
* **C81** each half of an interval has the bounds that the same text has alone; refuted for strings taken for seasons, and both ways of splitting and joining.
* **C82** a set gives the same result in any order of its pieces, and the same bounds in any other way of writing its members; refuted for members with dots and for the other kind of bracket.
* **C83** the text and the day of every bound are dates again that give this bound, this day; refuted for times that leave the year 9999.
* **C84** every result that is not a date and time has the bounds of an interval of two complete dates; refuted for an open end, which needs a set.
* **C85** a date within another date by the calendar has its bounds inside, and the comparisons respect that; refuted for instants.
* **C86** the String texts of string dates, qualifiers and ranges tell them apart when no component has an apostrophe, as is the case for all that the parser makes; refuted otherwise.
* **C87** the bytes of accepted strings: digits, nine letters and thirteen signs, or a season by name; none with a meaning in markup or shells; at least four bytes and a digit; refuted that each is one line.
* **C88** digits replaced by X: the span never gets narrower (SpecHide.v), except for months 0X, winters and days read as their month, which are refuted with witnesses.
* **C89** the web page: an accepted text is shown as laid out JSON (SpecWeb.v) from which the date can be read back, a refused one as the length of a message, and after a panic nothing is shown any more; that the reason is shown is refuted.
* **C90** the case of letters: an accepted text has the same result in capitals (SpecCase.v), and which features take small letters; that capitals and small letters are accepted alike is refuted.
* **C91** the server: where every path leads after at most four redirects (SpecSite.v), at which paths files are sent and folders listed, and that all the page asks for is there; how the client reads references.
* **C92** texts of any level that name one run of days (`days`, SpecTile.v): bounds, succession without gap, order; parts that fill a year, month, decade, century or millennium; the succession of seasons.
* **C93** requests as they are written, with escapes and a query (SpecTarget.v): which are refused, that the answer is otherwise that to the path of C91, where redirects end, and that the page finds its files. Refuted where slashes or the folder name wasm are escaped: two such spellings of one path can lead to different ends.
* **C66, C67** the WASM tools; C66 refuted for arguments with line breaks, C67 by the value with which the promise is rejected.

Not expressible here: data-race freedom of concurrent calls (the model is
sequential; the package-level regexps and the deprecated map are written only by
`init`), allocation and running time.

## 5. Layout of the development

* Model: `GoStr`, `Regex`, `Patterns`, `GoTime`, `GoBig`, `Edtf`, `Calendar`,
  `Common`, `Level0`, `Level1`, `Level2`, `Parser` (with cmp and unix), `Json`,
  `JsonText`, `JsonDoc`, `Unmarshal`, `Heap`, `BigText`, `ErrText`, `Cmd`, `Debug`, `Support`.
* `ModelTests` replays examples from the repository's own test tables by
  evaluation (tests of the model, not proofs).
* Specifications, written without the model's functions: `SpecCal` (Gregorian
  calendar, day numbers), `SpecText` (decimal and RFC 3339 texts), `SpecZone`
  (offsets), `SpecSpan` (spans and bounds), `SpecGrammar`, `SpecForms` (the
  documented forms of the three levels), `SpecMask`, `SpecHull` (dates a mask stands for),
  `SpecSet` (sets), `SpecErr` (strings an error may carry), `SpecJson` (JSON
  texts and members), `SpecPeriod` (order of periods), `SpecTools` (test checker,
  matches tool), `SpecReads` (order of the features, readings of all strings),
  `SpecRefused` (errors and panics of all strings), `SpecWasi` (lines), `SpecMessage` (texts of errors, the matches tool), `SpecFlags` (command lines), `SpecHelpers` (helpers of `common` and `calendar` called directly),
  `SpecWhole` (the whole result of a parse), `SpecSame` (notations for the same time), `SpecDirect` (parsers called directly), `SpecCompare` (comparisons and Unix ranges), `SpecUnmarshal` (texts that describe a date, dates with nil pointers), `SpecHeap` (following pointers, objects a result reaches), `SpecNotation` (numbers with a point and an exponent), `SpecHtml`, `SpecWrap` (what 64 bits leave of a number).
* Regular expressions: `RegexRel` (the backtracking matcher against a relation),
  `RegexGen` (languages and captures), `RegexSym`, `LangFacts`, `LangNorm`,
  `LangForms`, `LangForms2`, `GrammarFacts`, `SetGrammar` (each pattern against its
  grammar).
* Lemmas: the other `*Facts` and `*Proofs` files.
* Property theorems, each followed by `Print Assumptions` and an example:
  `PropApi`, `PropInv`, `PropLevel0`, `PropCommon`, `PropForms`, `PropLevel1`,
  `PropLevel2`, `PropMask`, `PropSet`, `PropErr`, `PropJson`, `PropPeriod`, `PropTools`, `PropReads`, `PropWasi`, `PropWhole`,
  `PropHull`, `PropRefused`, `PropSame`, `PropDirect`, `PropCompare`, `PropMessage`, `PropFlags`, `PropHelpers`, `PropUnmarshal`, `PropHeap`, `PropNotation`.

`seeded/LOG.jsonl` records the wrong programs the theorems were tried on: one
edit of a model definition each, the claim it breaks, and the theorems that no
longer prove (found by rebuilding a copy with every failing lemma set aside and
asking `Print Assumptions` of each property theorem).

## 6. Assumptions of the theorems

`Print Assumptions` answers "Closed under the global context" for every property
theorem: no axioms are used, neither our own nor the standard library's.
