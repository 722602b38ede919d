# Design of the Rocq model of `ccsds_ndm`

The code is read as text only. Nothing in /repo is executed. The development is
Coq 8.16.1, standard library only.

## 1. What is modelled

| Coq file | Python source | contents |
|---|---|---|
| `PyStr.v` | built-in `str` | strings as lists of code points; strip/split/startswith/find/join/... |
| `PyDec.v` | `decimal.Decimal`, `int`, `float()` acceptance | concrete decimals, `str()`, parsing |
| `PyVal.v` | python objects | values, exceptions as values, `env` oracles |
| `Schema.v` (generated by `tools/gen_schema.py` from the AST of the models) | `ccsds_ndm/models/ndmxml2/*.py` | all 218 classes and enums, fields in dataclass order, keywords, types |
| `KvnPre.v` | `ndm_kvn_io.py` 407-464, 1048-1065, 128-133 | pre-processing, type identification |
| `KvnTree.v` | 136-153, 466-571, 1162-1243 | object map extraction |
| `KvnSeg.v` | 573-783, 1068-1159, 1246-1341 | segment identification |
| `XmlBind.v` | 1344-1397 and the part of lxml/xsdata it feeds | flat XML binding |
| `KvnBuild.v` | 785-1045 | object building |
| `KvnWrite.v` | 218-405, 1400-1661 | KVN writer |
| `NdmXml.v` | `ndm_xml_io.py` | XML dispatch, strip, downcast, lazy serializer |
| `NdmIo.v` | `ndm_io.py`, path and byte readers of `ndm_kvn_io.py` and `ndm_xml_io.py` | top-level dispatch, files, newline translation |

Every definition cites its source lines. Exceptions are values of type `exn` in a
`res` sum type, so "raises X" is a statement about the returned value.

### The other files

| kind | files | contents |
|---|---|---|
| specification | `Spec`, `SpecIo`, `SpecKvn`, `SpecObj`, `SpecMsg`, `SpecDoc`, `SpecEph`, `SpecTdm`, `SpecAem`, `SpecApm`, `SpecFrom`, `SpecOrder`, `SpecRepeat`, `SpecNum`, `SpecSpell`, `SpecSave`, `SpecPlace`, `SpecInsert`, `SpecComment`, `SpecField`, `SpecLines`, `SpecChars`, `SpecErr`, `SpecBack`, `SpecSchema`, `SpecAgain`, `SpecFix`, `SpecCross` | the vocabulary of the statements; of the model they use only the data types (strings, values, schema tables) and the functions the statement is about |
| facts, basic | `StrFacts`, `DecFacts`, `NumFacts`, `PreFacts`, `SegFacts`, `BuildFacts`, `WriteFacts`, `ParseFacts`, `KeptFacts`, `IoFacts`, `XmlFacts` | lemmas about one model file each |
| facts, reading | `ShiftFacts`, `ReadFacts`, `ComposeFacts`, `GapFacts`, `RelFacts`, `SegListFacts`, `OrderFacts`, `AlikeFacts`, `PlaceFacts`, `InsertFacts`, `CommentFacts`, `ErrFacts`, `RejectFacts`, `TotalFacts`, `BackFacts`, `BackRead`, `BackErrs`, `ConformFacts`, `AgainFacts`, `AgainWrite` | which lines a section claims, sections one after the other, sections with gaps, lists of segments, exchanged lines, respelled values, a value replaced, a line put in, a comment put in, the exceptions and their causes, the shape of what is read |
| facts, messages | `MsgFacts`, `CoreFacts`, `UserFacts`, `DataFacts`, `SingleFacts`, `ListFacts`, `EphText`, `EphFacts`, `OemFacts`, `TdmFacts`, `AemTree`, `AemState`, `AemFacts`, `ApmFacts`, `DocFacts`, `SayFacts` | sections, containers and whole messages written and read; documents in any layout |
| theorems | `PropIo`, `PropLex`, `PropSeg`, `PropWrite`, `PropRound`, `PropCdm`, `PropKept`, `PropFind`, `PropOem`, `PropOemDoc`, `PropText`, `PropTdm`, `PropAem`, `PropApm`, `PropDoc`, `PropApmDoc`, `PropStable`, `PropVers`, `PropFrom`, `PropOrder`, `PropRepeat`, `PropNum`, `PropSpell`, `PropSave`, `PropPlace`, `PropInsert`, `PropComment`, `PropField`, `PropLines`, `PropChars`, `PropErr`, `PropTotal`, `PropRemove`, `PropBack`, `PropSchema`, `PropAgain`, `PropFix`, `PropCross` | the properties, each with an `Example` that meets its hypotheses |
| concrete cases | `Demo`, `CheckFacts`, `CheckEph`, `CheckAgain`, `Samples`, `SamplesCheck` | boolean checkers, demonstration objects, the repository's own sample files |

### Not modelled / simplified

* The third-party XML engines. `NdmXmlIo` is modelled over abstract parse/render
  functions. The KVN reader builds tiny flat XML fragments and hands them to
  xsdata; that binding is modelled concretely in `XmlBind.v` (trusted reading of
  xsdata 21.5: child tag looked up by field name, unknown tag or second
  occurrence of a non-list element rejected, unconvertible text kept as string,
  fixed `id`/`version` attributes ignored, no required-field enforcement).
  The value bound for *empty* text is left to an oracle (`x_empty`).
* Unicode tables for code points above 127 (`isnumeric`, `isalpha`, `upper`, decimal
  digits) are oracles in `env`; ASCII behaviour is exact. White space is exact
  for all of Unicode.
* Warnings, logging and printing. Object identity (all values are trees).
* Python `float` values inside objects, dataclass `repr`.
* File encoding: a file holds decoded characters. Newline translation is modelled (`read_newlines`,
  `write_newlines`; which line end the platform uses is an oracle in `env`).
* Exponent range limits of the C decimal module.

## 2. Properties and how each is approached

(The authoritative list is `properties.jsonl`; status is in `MANIFEST.json`.)

| id | model | proof |
|---|---|---|
| C01 | `NdmIo.identify_format` | case analysis against an independent spec on "core" of a text (`ws ++ core ++ ws`) |
| C02 | `NdmIo` with file-system map | unfolding; all objects/paths |
| C03 | same, with newline translation | unfolding; the text of a file is described by the relation `reads_as` |
| C04 | same | case analysis: fs unchanged on error, pointwise frame on success |
| C05 | reader state machine (`_keys`, `_lines`, tree) | induction over history |
| C06 | `NdmXml` writer state machine | refuted with two-call witness; exact characterisation for all histories; positive theorem through `NdmIo` |
| C07 | `NdmXml.from_string` over parse oracle | counting spec (total number of messages) |
| C08 | `_is_multi_ndm` vs `_strip_multi_ndm` | equivalence for all objects |
| C09 | `KvnWrite.to_string` | refuted |
| C10 | `KvnPre` | relation "same layout-free text", equality of results |
| C11 | `KvnPre.lex_line` | string lemmas |
| C12 | writer line + lexer | string lemmas |
| C13 | writer line + lexer | string lemmas |
| C14 | same | refuted |
| C15 | `KvnPre` + `from_string` | filter lemma |
| C16 | `identify_data_type` | case analysis, build keeps class |
| C17 | `KvnSeg`, `KvnBuild` with explicit fuel | out-of-fuel unreachable for every document |
| C18 | `KvnSeg` | induction over trees and loops |
| C19, C20 | reader | refuted |
| C21 | `PyDec` | digit-string lemmas; parse (str d) = d |
| C22 | writer + identification | composition |
| C23 | schema | exhaustive in-kernel check over the finite schema |
| C24 | writer | induction on fields against an independent line spec |
| C25 | writer + lexer + binder | generic over classes satisfying a decidable schema condition |
| C26-C28 | full pipeline | generic tree theorem + C25 |
| C29 | full pipeline | exact read-back under the presence condition; refuted in general |
| C30 | full pipeline | list-of-segments induction; both from the writer and from any document (`SpecEph`) |
| C31 | reader | refuted: the frame line shifts the numbers |
| C32, C33 | reader/writer special lines | word and column lemmas (`EphText`, `EphFacts`) |
| C34 | full pipeline | as C30, observations recognised by their dates (`TdmFacts`) |
| C35, C37 | writer/reader | refuted with witness; positive part for the types where it holds |
| C36 | reader/writer | attitude type chosen per segment (`AemTree`), one data line (`AemState`), messages (`AemFacts`) |
| C38 | reader/writer | positive on upper-case distinct names inside the OMM/OPM/RDM read-backs; refuted for case and others |
| C39 | reader | refuted; the CDM read-back states when it holds |
| C40 | `NdmIo.to_string` | refuted |
| C41 | `NdmIo.to_file` | refuted: text that cannot be encoded truncates the file |
| C42 | `NdmIo.to_file` | XML proved, KVN refuted |
| C43 | read-backs of C26-C28 | the object read differs at most in its comment fields |
| C44 | writer | the text *says* (relation `document`, `SpecDoc`) the items of the message, in order, and nothing else |
| C45 | reader | every text that says the items of a message, in any spacing and with blank lines anywhere, is read as that message |
| C46 | binder | type-by-type analysis of conversions, `reparse` |
| C47 | full pipeline | APM: sections with sub-sections (`ApmFacts`); exact read-back, equality under conditions, refuted in general |
| C48 | writer after reader | what was read is written with the same lines, and read back unchanged |
| C49 | reader | two runs related line by line (`like`): only the second of the two header lines differs |
| C50 | reader | every value of the result is related (`SpecFrom`) to a line of the text, through all builders; an attitude record to the words of one line, then `respelled` |
| C51 | reader | range of a header with gaps computed exactly, repeated non-list field rejected; two refutations of the full claim |
| C52 | reader | the two runs find the same ranges and bind the same children; permutation by adjacent exchanges |
| C53 | `py_decimal`, `py_int`, `float_ok` | independent grammar with values; parsers inverted and computed on every spelling; white space listed explicitly |
| C54 | whole KVN reader | two documents that differ in the value of one line: identification takes the same ranges (`AlikeFacts`), so the same values reach `bind_child`, which converts both texts to the same number |
| C55 | `io_to_file`, `io_from_path`, `kvn_from_path` | induction over the saves; one constructor of `keeps` per message type, discharged by the round trip theorems; C22 for the recognition of the format |
| C56 | whole KVN reader | the line at position p: by induction over identification at most one element both has p in its range and takes its keyword (`takers`, `spot_identify`), which rests on a check of the eight object maps that such keywords are told apart; building then changes one field (`build_place`) |
| C57 | whole KVN reader | a line put in at position p: identification of the longer document follows that of the shorter one, with every place moved (`cut`, `adv`, `all_moved`); the gaps of the section around p hold no repeated keyword, so no range is cut short (`calm`); a section that is not around p has the same gaps; building filters the new line out (`build_er`) |
| C58 | `read_newlines`, `pre_process`, `identify_format` | induction over the stored lines; a CR directly before an LF only adds or drops a blank line, which the reader skips |
| C59 | whole KVN writer | induction over the object with a predicate for the characters of keys and values and one for those of lines; the fixed texts are checked by computation |
| C60 | whole KVN reader | by C57 a line with a keyword that occurs nowhere may be put where the comment goes, which gives two documents of the same length that differ in one line; identification takes the same ranges in both (`object_put`), because the sections before the place end before it (`low`), those behind begin behind it (`aft`, from the order of the lines), and the one around it covers it in both; building then adds one child (`build_spot`). Which sections come before which is computed from the object maps (`pathb`) for every section of the five types and related to the order of the specification (`prec_sound`, `lone_sound`) |
| C61 | whole KVN reader | the argument of C60 holds for any line that no other line shares the keyword of (`line_put`, `object_put`, both used by C60 and C61); only the last step differs: binding one more child sets the field (`parse_field`), and its value is described by `set_by` (`child_set`). That every keyword of every section of the five types names a field that is not a list and starts as None is computed (`plain_fields`) |
| C62 | whole KVN reader | `only P r` says that every exception of `r` satisfies `P`; it goes through identification, binding and building by structure (`ErrFacts`). AttributeError is excluded because every part of every object map is an attribute of its class (computed, kept by identification), OutOfFuel by C17. For the causes `P` is taken as "a rejection comes with a bad character or a keyword twice among these lines", which is monotone in the lines (`sub`), and every keyword of the five types' object maps names one field (`plain_sane`, computed). The XML libraries' rejection is one exception of the model (`XmlReject`); which Python class it has is not modelled |
| C63 | whole KVN reader | by C62 only IndexError is left to exclude. It can come from four places: the range trimmed by removing comments, the comment asked for at the start index, a user defined block, and a line without a value. The first and third are excluded for distinct keywords (`range_fits`, `user_fits`), the fourth by the equals signs (`build_whole`), the second because the search index stays inside the document until the first data section is reached: the header and metadata cannot claim the last line (`ahead_lt`, `safe_subs`), and behind it no class has COMMENT as its only keyword (`free`). These shapes are computed for the five trees (`plain_fits`, `plain_path`). Refuted: the same without the last two conditions. |
| C64 | whole KVN reader | the shorter document satisfies the conditions of C63 (`out_free`), so it is read; C57, C60 and C61 then say what the line put back does. |
| C65 | whole KVN reader and writer | the shape of what reading builds (`shaped`, BackFacts.v): every attribute is a scalar, a value object, a list of comments, a data record or a section of such; it is an invariant of `build` given checks of all classes of the seven trees by computation (`roots_stat`, BackRead.v); the writer is total on that shape (`all_written`), and every exception it raises there has its cause in the message (`all_fair`, BackErrs.v). `line_of` for the converse is defined in SpecBack.v without the writer. Assumes `empty_read` (what xsdata binds for empty text). |
| C66 | whole KVN reader | `conforms` (SpecSchema.v) is an inductive relation over the schema tables only, with the number spellings of SpecNum.v. It is an invariant of `build` (ConformFacts.v): what one element adds to an object keeps the declared variables in order (`attach_members`), parsed values fit (`conv_conforms`, `parse_list_fits`), nested data records are parsed again with their own class (`reparse_conforms`, `attitude_grown`); that the trees of the seven types carry the declared classes is checked by computation (`roots_typed`). Assumes `empty_read`. `CheckSchema.v` has a check that every fitting value passes (`may_fit_spec`), with which wrong readers are refuted on a concrete document (`misfit`, section 4) |
| C67 | whole KVN reader and writer | joins C66 with C26 to C29: a message that fits the schema and is `tidy` (SpecAgain.v) is one of the well-formed messages of the round-trip theorems (`section_ok`, AgainFacts.v; `omm_parts_of` and the like, PropAgain.v). `uncommented` and `all_comments` are recursive functions on any value and know nothing of sections; the conditions are stated with paths of attribute names (`attribute`). That the second text is the first one is `data_same` (AgainWrite.v): the lines of a data block do not depend on which of its comments stand before its first section and which inside it. The examples are three sample files of the repository and one small document whose comments move. Assumes `empty_read`. |
| C68 | `NdmIo` and the whole KVN reader and writer | `well_formed` (SpecFix.v) is `keeps` (SpecSave.v) without the condition on the place of comments; each such message has the text of one in `keeps` with the same values and comments (`omm_settles` and the like, PropAgain.v), so the round trips of C55 apply to it. `copied` (SpecFix.v) is a sequence of loads and saves; the copies are an induction over it. The example has comments that do move and a copy over itself. |
| C69 | `NdmIo`, `NdmXmlIo.from_string`, KVN reader and writer | `parser_fits` and `convertible` (SpecCross.v). `io_fits`: whatever `NdmIo.from_string` returns, unless it is a combined message, fits the schema (C66 for KVN; for XML the change of class of the items and the unwrapping are followed through, and the classes before and after have the same fields by computation). Then `convertible_formed` joins it to C68. The parser is a parameter; the example is a document with one message in a combined message. |
| C70 | KVN writer, `NdmIo` | `complete` (SpecSend.v) with `conforms` of SpecSchema.v. The 115 classes reachable from the seven message classes are computed (`parts`), shown closed under field types and checked one by one (`cls_ok`): value with units, rotation component, data record, or section with scalar, object, comment, user-parameter and section-list fields. By induction on the object (`all_good`, SendFacts.v) it then has the shape of BackFacts.v, on which the writer is total (C65). AEM is followed through its sections one by one (SendAem.v), as its data lines depend on the metadata lines written before (`has_quat`). Witnesses that fit the schema are checked by `fitb`, which is proved sound. |

### What the refutations found

The refuted statements are documents or objects on which the code departs from what a user would
expect. In short:

* reading: units on user defined lines are dropped; `COMMENTfoo` is a comment; a container that has
  only comments reached at the end of the text raises IndexError; unknown keywords are ignored,
  but one directly before the first maneuver loses all maneuvers; any line between user defined
  lines becomes a user defined parameter; a repeated keyword is ignored when it comes last and
  truncates its section when said three times; a document with CR line ends is read from a file but
  not from a string or from bytes; `START_TIME` as first metadata
  line of a later tracking segment is read as an observation; a `COV_REF_FRAME` line shifts the
  matrix; OEM columns after the ninth are ignored; lower-case attitude types or quaternion orders
  fail or are confused; a section field that only a later segment has makes the reader fail.
* writing: `ANGLE_1`/`ANGLE_2` raise IndexError; quaternion derivatives raise KeyError; spin lines
  carry units and the word None; comments of covariance matrices are written under a wrong keyword;
  units outside the schema raise AttributeError; combined messages raise AttributeError; line ends in
  values are not escaped, so a value can write further lines; carriage returns in values are lost in
  files.
* comments: they move to the first section in range, and comments inside data blocks are lost or
  split the block; with sections out of order one comment is read into two sections; a comment behind
  the last line of a message is lost.

## 3. Trusted base

* The Coq kernel (8.16.1) and `vm_compute`.
* Fidelity of the model to the cited lines (hand-read), and the reading of
  third-party behaviour listed in section 1. As a check, every KVN sample of the
  repository's test data is read by the model inside Coq and compared with the object
  described by the XML truth file that the repository ships beside it (`Samples*.v`,
  generated by `tools/gen_samples.py` from these data files).
* `Print Assumptions` is printed under the property theorems; the result for all of them is
  "Closed under the global context": no axiom at all, neither of the standard library nor own.
  (A checker that lists the axioms of every *loaded* library also names seven of the standard
  library's `ssr` files, which some standard modules load; no theorem depends on them.)
* `vm_compute` is used for facts about the finite schema and for concrete cases.

## 4. Wrong programs

`tools/mutate.py` copies the development, applies one textual edit to a model file, rebuilds
everything that depends on it and records which theorems no longer prove; `tools/log.py` appends the
outcome to `seeded/LOG.jsonl`. Edits that no theorem noticed led to stronger statements (the log names
them) or are recorded as equivalent to the original or outside every claim.

What a failed proof shows is limited. The control edit `t6` changes no behaviour (it appends an empty
string to attribute names), yet the proof of `C66_conforms` stopped: scripts follow the wording of the
definitions. A theorem is also counted as failed if it only rests on a lemma that failed. An entry in
`theorems_failed` therefore means "the proof no longer goes through", not "the statement is false of
the edited program". A theorem that survives although its claim is broken is conclusive; a failure is
not. Entries with the field `witness_confirmed` are stronger: there a concrete case that contradicts
the named theorem was checked by Coq in the edited copy. Entries without that field have not been
confirmed in this way.
