# Formal model of nappy in Rocq/Coq 8.16.1

Source: `/repo` (cedadev/nappy, pinned commit), read as text, never run.
Properties: `properties.jsonl`. Status per property: `MANIFEST.json`. Mutation log: `seeded/LOG.jsonl`.

## 1. Layout

`rocq/theories/`

| directory | content | rule |
|---|---|---|
| `Py/`     | strings, integers, numbers, exceptions: the Python primitives used by the code | definitions |
| `Model/`  | the code, function by function, every definition cites file:lines | definitions only |
| `Spec/`   | small independent specifications used in theorem statements | definitions only |
| `Proofs/` | lemmas | |
| `Props/`  | one file per property group: `Theorem … exact lemma`, an `Example` that meets the hypotheses, `Print Assumptions` | |

## 2. How Python is represented

* **Text** is a list of code points (`N`), so every Unicode string is covered. White space is the exact set
  of `str.isspace`/`\s`; `splitlines` uses the exact set of line boundaries; text-mode reading applies
  universal newline translation; a text file is the code-point sequence given to `file.write`
  (encoding errors are not modelled).
* **Exceptions** are values: `Res A = Ok a | Err e`. A loop that cannot end is `Err EHang`
  and is justified by a separate small-step theorem (C05).
* **Values** of the NASA Ames dictionary are dynamically typed (`pyv`: int, number, string, None, list), and the
  dictionary is a map from the 34 recognised keys to optional values, as in `NACore`. Type confusion is an
  error value, as in Python.
* **Aliasing.** `setattr(self, k, na_dict[k])` shares the list objects with the caller. In the writing path the code
  never rebinds such an attribute, it only mutates it in place (`reverse`), so one map represents both the object
  and the caller's dictionary. The writer is a state monad whose state (file text, header buffer, dictionary)
  survives exceptions.
* **Numbers** are abstract: a type with `%s`, `float_format % x`, `float()`, `int()`. Theorems have the laws they use
  as explicit premises (for instance: `float(float_format % x)` is a function `g x`). A concrete instance shows the
  premises can be met. Integers (`%d`, `int()`) are concrete with proved round trip.
* **External libraries** (xarray, numpy, configparser, getopt) are represented only by the small part of their
  behaviour that the modelled function observes, as function arguments or plain data.

## 3. Plan per property

| id | modelled | proof |
|---|---|---|
| C01 | regex of right_strip as a function | equals declarative decomposition; uniqueness |
| C02–C04 | text_parser functions | induction on lines; C04 is false of the code: refutation + what holds |
| C05 | the readline loop as a transition system | invariant: at end of file the loop never leaves; refutation with a truncated file; termination when enough lines |
| C06 | `_checkForBlankLines` | induction on lines |
| C07, C08 | header writers, `_fixHeaderLength`, universal newlines | structural, for arbitrary dictionaries; C08 refuted for `\r` in text, proved without |
| C09–C16 | writer and reader of every FFI | typed specification record, embedding into the dictionary, write-then-read = canonical form; C13, C16 refuted in general, proved on the exact sub-domain (C13 as an equivalence: Proofs/GridExact shows that every file read has at least as many listed values on the last axis as the first number of NXDEF says, and so on); for C16 with several variables: where each value ends up |
| C17 | same | corollary of round trip with `fmt (g x) = fmt x` |
| C18–C20 | state of the writing monad | frame invariant per FFI; refuted for the 2xxx–4xxx classes, proved for the others |
| C21 | annotateLine(s) | simulation between annotated and plain run |
| C22 | readFFI / top line | all texts |
| C23–C27 | readData for all FFIs | invariants over all inputs, fuel shown sufficient |
| C28–C31 | object life cycle as transition system, file buffer with arbitrary flush points | invariants over all traces |
| C32–C34 | chooseFFI, class lookup | case analysis; C33 refuted/partial |
| C35–C37 | na_core getters | regex as function, declarative characterisation |
| C38–C43 | common_utils, xarray_to_na helpers | induction |
| C44–C47 | compare | all line lists; several refutations |
| C48 | list_manipulator | induction on shape |
| C49–C53 | na_content_collector, xarray_to_na | measure, partition invariant; refutations |
| C54, C59–C64 | na_to_xarray, na_to_nc | per-variable inversion of the conversion; refutations with files read in binary64; C63: success exactly for the stated files, from what the reader guarantees (C24, C25) |
| C55–C57 | axis normalisation and its inverse in the collector | induction |
| C58 | compare.compFiles | all pairs of line lists |
| C65, C66 | the reader as a whole | simulation between two runs of the reader that agree on all keys but IGN and NLHEAD |
| C67, C68 | the writer with two delimiters, `compNAFiles` | simulation between two runs of the writer whose files are the same rows of items; rows are taken apart again by the comparison |
| C69–C74 | nappy_api conversions, nc_to_na, na_to_nc.fix_ints | composition of the reader, the collector and the writer; the simulation of C67 lifted to a disk of files |
| C75–C77 | na_content_collector: V, VMISS, A, X, XNAME, DX | invariants of the pushing loops, frame lemmas of the collector steps |
| C78, C79 | collector, then the writer and the reader of FFI 1001 | the dictionary of C75 and C77 is a record of C09; refutations in binary64 |
| C80–C82 | global attributes, na_to_xarray then the collector | the regular expression as a longest match; composition of C54, C61 and C75 |
| C83–C88 | script/nc2na, nc2csv, na2nc: command lines | `getopt` of the standard library as a model; a command line is a list of options with their words, induction on it |
| C89–C91 | na_to_nc.writeNCFile, convertNAToNC, the programs na2nc and nc2na | the dictionary keeps the last variable of a name; composition with C73, C74, C83 and C87 |
| C92, C93 | getBestName, collector, writer and reader of FFI 1001, NACore, na_to_xarray | C78 followed by C63 and the inversion lemmas of C54; names by C35 |
| C94 | configparser, makeConfigDict | the text of a document is read line by line, the state of the parser after each piece is known; a section or option given again is refused in that state |
| C95 | getConfigDict | dictionaries of sections as objects in a list; invariant over histories |
| C96 | override, prepare, writeNAFiles, local attributes | induction over the overriding items; the refutation runs nc2na and reads its file |
| C97 | makeAnnotationsConfigDict, annotations | C94's reading followed by C21 |
| C98 | override, wrapped, nc2na | case analysis on the rule and the comments that are there; the refutations run nc2na |
| C99 | write_body, read_file | the normal form of a record (RT1–RT6) is idempotent and has the same header length; the dictionary read is determined by record and header length (RT7) |
| C100 | read_file, write_body | from what the reader guarantees (C24, C25, texts that were read are clean) a record of the round trip theorems is rebuilt from the dictionary (Rewrite) |
| C101, C102 | compare.compDirs, compare | directories as trees; nested induction, entry by entry, against a description by paths |
| C103, C104 | compare_na: parseArgs, compareNA, main | as C83; `apply` raises NameError |
| C105 | read_file, write_body | writing is determined by all keys but IGN (resp), after the lines; reading behind lines from C65 (Ignored) |
| C106 | convert, write_body, read_file, normalizeIndVars_2010 | the converted dictionary is a record of C12 and C13 (values C75, axes C56, C77); then rt2010; the bounded axes are expanded with axes_back |
| C107 | same, toXarray | C106, then C63 (the file is converted), the loop over the axes with their values, C54 for the values |
| C108 | collectNAContent on request, write_body, read_file | exact contents of the dictionary for 2110 and 2310, C75 and C52 for the rest, round trips C14 and C16; for 2310 the writer is shown to use only the first item of DX and of each mark |
| C109 | `_defineNAVars`, 2110 and 2310 | exact contents of ANAME |
| C110 | xarray_utils.isUniformlySpaced, np.linspace, _analyseVariables | place by place; over Q by field arithmetic; in binary64 the operations of SpecFloat are shown exact on multiples of one power of two (Proofs/FloatExact) |
| C111 | str(), float() on doubles (Spec/Binary64) | rounding depends on the value only (Proofs/FloatRound); 17 correctly rounded digits lie within half the distance of two floats (FloatDec); the printed text parses to its digits (FloatText); results of rounding are in the format (FloatValid) |
| C112 | "%.10g", float() on doubles | the nearest double to ten digits has these digits (FloatStable: by size of 10^t against the spacing of floats; the least power of ten by computation); error bound over Q (FloatAcc) |
| C113 | na_file.py getters, `__getitem__` | what was read is known from the round trip theorems (C10 to C16); names by the text splitting lemmas |
| C114, C115 | xarray_utils | case analysis; induction over the dimensions |
| C116, C117 | list_manipulator, ffi_translator | computation on the first element; induction for one dimension |
| C118 | parse_config, environment | induction over histories |
| C119 | all readers and writers with doubles | the round trip theorems with the laws of C111 and C112 |
| C120 | float(), str(), "%.10g" on numerals | numerals and their value over Q are specified apart (DecimalSpec); a decimal of at most 15 digits is given back by rounding the nearest double to as many digits (FloatShort), the printed digits denote the number (FloatNumeral) |
| C121 | conversion and files with doubles | C92 and C107 with the laws of C111; arithmetic on multiples of a power of two is exact (FloatExact), an exactly representable decimal is read as itself and printed in full (FloatGrid), x * 1 = x |
| C122 | _appendAxisDefinition, write methods | C56 and the tables of C108 say where the dates stand in the dictionary; a write method that meets them gives no result, by following the statements before them |
| C123, C124, C125 | converter objects | invariant over sequences of calls (Model/Converter keeps the list between calls); items given for the header are constant updates, so idempotent; C18 and C19 for the writers |
| C126 | nappy_api | computation with the names of the modules and classes that exist |
| C127 | XarrayDatasetToNA | list lemmas; the order of a python set is universally quantified |
| C128 | _defineNAGlobals with a file of local attributes | the conversions with and without the section nc_attributes are compared step by step |
| C129 | na_file.py `__enter__`, `__exit__` | a block is a sequence of operations that ends with close; C28, C31 |
| C130 | na_to_xarray.py `_mapNACommentsToGlobalAttributes`, na_content_collector.py `_defineNAGlobals`, `_defineNAComments` | lines of the attribute comment after replacing double line breaks; sorting keeps plain lines |
| C131 | na_content_collector.py `_defineGeneralHeader` | follows the entry DATE through all steps of collectNAContent |
| C132 | na_content_collector.py `_defineNAComments`, xarray_to_na.py `_convertSingletonVars` | state of the loop over attributes: SCOM only grows by blocks of lines |
| C133 | _convertNAIndVarToXarrayAxis | the pattern is read off greedily: no class overlaps the next one; attribute lookups in the finished dictionary; loop over the axes: once set, the units for time stay |
| C134 | _mapNACommentsToGlobalAttributes | the ten names are distinct and set last; the digits of `%.4d` by their value |
| C135 | getBestName, _convertNAIndVarToXarrayAxis | C77 (names in the file), C78 and C106 (the file), C93 (name and units apart), C133 (axis made); refuted for the second trip: the name grows by a blank |
| C136 | writeNAFiles, constructNAFileNames, _writeNAFileSubsetsWithinSizeLimit | what a dictionary writes is a list of files that does not depend on the disk; every name of group k is front ++ k ++ a character that is no digit |
| C137 | _reorderVarsIfPreviouslyNA, _analyseVariables, _reorderVars | the filled places of the list of 1000 are sorted; the best variable is the first of its shape, so sorting keeps the order; a sorted list is determined by its members (C49) |
| C138 | writeNAFiles (overriders), defineNAGlobals, defineGeneralHeader | the loop over the items with a flag for a date that is an array: the same as without where the flag or the item is missing, an exception where both are there |
| C139 | writeNAFiles, convert, collectNAContent: messages | messages are values with a text each; induction on the dictionaries with the counter and the list of files so far; forgetting the messages gives C42's loop |
| C140 | _defineGeneralHeader, convert: messages | the warning is given in the cases of C131; induction on the loop over the unused variables |
| C141 | NADictToXarrayObjects.convert, called again; writeNCFile | the object as a record of the attributes that exist; the loops return what was collected and the exception; the global attributes are mapped to themselves |
| C142 | setup.py entry points, exitNicely, what nc2na, nc2csv and na2nc print | status as the argument of `sys.exit`; output as a list of lines, on top of C90 and C91 |
| C143 | compareSections, compNAFiles (printing) | the texts of one section are found by induction over its lines: three for each position that differs; no other text can be mistaken for the words sought |
| C144 | getDefault, getDebug, the global variables of xarray_to_na.py | the dictionary of C94 has one entry for each item of main; marks and names of rules are found letter by letter |
| C145 | datetimes_to_nums, get_interval, getArrayAsList | C114 for the times; the numbers are found by induction over the values; refuted for a time coordinate of another name |
| C146 | get_rank_zero_array_value, _readXarrayFile, _convertSingletonVars | UTF-8 by ranges and linear arithmetic, the converse by induction on the length; C132 for the comments; refuted for objects |
| C147 | _updateWithColumnHeaders, writeNAFiles, _writeNormalComments, writeData (1001) | what the last comment is after prepare; the last text of the header is the last comment (Proofs/LastLine); rows from the loop over the axis; refuted for the default delimiter |
| C148 | na_core.py getNADict, `__getitem__`, get methods; Model/Lifecycle | two runs side by side, with and without the questions; objects alike up to na_dict; the writer respects equal dictionaries (WriteSim); refuted for getNADict before the first write |
| C149 | na_file.py readData and the data readers; Model/NARead | the loop over marks split in two: more lines behind those used change nothing (readers of data and of headers), later marks only append (relation `grown`); refuted for cuts inside a line and inside the header |
| C150 | na_file.py write and the header and data writers; Model/NAWrite | two runs of the writer side by side (relation `sim` on states, one relation per attribute), then the loop over marks split in two (`goes_further`) |
| C151 | nappy_api.py convertNCToNA, xarray_to_na.py writeNAFiles; Model/Api, NCWrite, Converter | the loop of the object (`write_list`) against the loop of one call (`write_all`); ties the two models of writeNAFiles together; refuted for the default name |
| C152 | header and data writers of all classes; Model/NAWrite | the two lists of items (Spec/SectionSpec), and the relation `resp` of Proofs/WriteSim for the keys in them |
| C153 | readCommonHeader, readHeader of all classes, readData; Model/NARead | the four keys (Spec/FreeTextSpec) and the text of a line; two runs compared with the relation `sim` of Proofs/ReadSim |
| C154 | readComments, readHeader of all classes, readData; Model/NARead | the key NCOM and the stripped lines (Spec/CommentTextSpec); every step of the header reader depends only on the lines it takes (`local`, `ends` in Proofs/CommentText) |
| C155 | readComments, readHeader of all classes, readData; Model/NARead | the key SCOM and the stripped lines (Spec/SpecialTextSpec); `local` of Proofs/CommentText for the lines before, `sim` of Proofs/ReadSim for the lines behind |
| C156 | readVariablesHeaderSection, readHeader of all classes, readData; Model/NARead | the key VNAME and the name of a line (Spec/NameTextSpec); `local` of Proofs/CommentText for the lines before, `sim` of Proofs/ReadSim for the lines behind |

## 4. What is modelled

| code in /repo/nappy | model | left out |
|---|---|---|
| utils/right_strip.py, utils/text_parser.py | `Model/TextParser`, loop on an open file step by step in `Model/ReadLoop` | |
| utils/common_utils.py | `Model/CommonUtils` (file classes), `Model/Utils` (rest), `Model/Defaults` (`getDefault`, `getDebug` for the texts True and False) | `getVersion`; eval of any other text |
| utils/list_manipulator.py | in `Model/CommonUtils` and `Model/NARead`/`NAWrite` (populator, writeLines); `arrayToList`, `listOfListsCreator` in `Model/ListTools`, with utils/ffi_translator.py | numpy itself: arrays are trees with a shape |
| utils/compare_na.py, utils/compare.py | `Model/Compare`, `Model/CompareProg`, `Model/ComparePrint` (what compNAFiles prints) | usage texts; links between directories |
| na_file/na_core.py | `Model/Dict`, `Model/NACore` | |
| na_file/na_file.py, na_file_NNNN.py: reading | `Model/NARead`, `Model/Normalize` | |
| na_file/na_file.py, na_file_NNNN.py: writing | `Model/NAWrite`; the same call by call in `Model/NAWriteLog` | StringIO details: the header buffer is a text |
| na_file/na_file.py: get methods, items | `Model/NAObject` | |
| na_file/na_file.py: object life | `Model/Lifecycle`, `Model/WithBlock` (with statements) | garbage collection time (`__del__` may happen at any time) |
| nappy_api.openNAFile | `Model/NARead`, `Model/NCWrite` | |
| nappy_api: convertNAToNC (`Model/Programs`), convertNAToCSV, convertNCToNA, convertNCToCSV, readXarrayObjectsFromNA, getXarrayVariableFromNA | `Model/Api`; convertXarrayObjectsToNA, convertXarrayObjectsToCSV, writeNADictToNC in `Model/Converter` | reading and writing NetCDF files: a data set is a list of variables and attributes |
| nc_interface/xarray_utils.py | `Model/Xarray`; isUniformlySpaced with np.linspace in `Model/Linspace` (the conversion takes it as a parameter); kinds of coordinates, axes and dimension names in `Model/Coord`; dates and their numbers in `Model/TimeCoord` | xarray itself: variables are records of name, attributes, axes, values |
| nc_interface/na_content_collector.py | `Model/Collector`, `Model/LocalAttrs` (section nc_attributes) | datetimes (cftime objects) on later axes are a value that is no number, text or list |
| nc_interface/xarray_to_na.py, xarray_objs_to_na_files.py | `Model/Collector` (convert), `Model/NCWrite` (files), `Model/Converter` (objects and what they keep between calls), `Model/NumpyDate` (a date that is a numpy array), `Model/DatasetVars` (variables of a data set), `Model/Messages` (output messages) | what is logged |
| nc_interface/na_to_xarray.py, na_to_nc.py, nc_to_na.py | `Model/ToXarray`, `Model/ToXarrayLife`, `Model/Api` | the NetCDF encoding of values, `xr.open_dataset`; `Model/ScalarValue` has `get_rank_zero_array_value`, which `Model/Api` and `Model/Collector` leave out (C146_again connects them) |
| utils/parse_config.py | `Model/ParseConfig` (with python's configparser.py 3.11, RawConfigParser.read for text files, and the three distributed ini files), `Model/ConfigCache` | interpolation (not used by RawConfigParser), encodings; `Model/EnvConfig` has the environment variables of getAnnotationsConfigDict and getLocalAttributesConfigDict |
| script/nc2na.py, nc2csv.py, na2nc.py, setup.py (entry points) | `Model/Getopt` (python's getopt), `Model/CommandLine`, whole programs in `Model/Programs`, exit status and standard output in `Model/ExitStatus` | usage texts |

Simplifications are stated in the comment of the definition concerned. Not expressed at all: behaviour of
xarray/netCDF files themselves, what is logged.

Several definitions are parametrised by numbers (`NumOps`, `ArithOps`). Theorems hold for every instance, with the laws
they need as premises. Concrete instances: `ZNum` (integers), `WholeNum` (whole-valued floats), `QNum` (rationals) and
`Binary64` (IEEE 754 double precision with correctly rounded reading, shortest `repr` and `%.10g`, built on
`Coq.Floats.SpecFloat`, which has no axioms). Refutations that depend on rounding are in `Binary64`.
`Float64` restricts `Binary64` to the numbers of the format; C111 proves the formatting laws for it, so that the
theorems with these laws as premises (C09 onwards) are not vacuous for real floats.

## 5. Trusted base

* The Coq 8.16.1 kernel (and `coqchk`), and `vm_compute` for the concrete cases.
* The reading of Python semantics in `Py/` and `Model/`, as their comments say.
* Axioms: none. `Print Assumptions` after every theorem in `Props/` prints `Closed under the global context`
  for all theorems named in `MANIFEST.json`.

### How far the reading of Python was checked

The code cannot be run here, but /repo/tests/test_outputs has files that it has written. `Props/Recorded` runs the model
on the input files of the tests and compares, character by character:

* for each of the nine formats, the file written after reading, the second file (commas, `%.6f`) and, where the file in
  the repository is from this version, the third file (annotations), each written from the dictionary that the one before
  left behind; and the file with annotations in braces;
* the results of the comparisons that `tests/test_na_file.py` asserts;
* the NetCDF file `1010.nc`: names, attributes, fill values, numbers (as binary64) and global attributes.

`Props/TestSuite` states the assertions of tests/test_var_units.py, test_na2nc.py and test_nc2na.py about the model.
The file 2160_ndacc (635 kB), too long for a compiled proof, was compared once with `Eval`: the 764393 characters of the
file written from it are the recorded ones.

Not compared: files from earlier versions (`*-from-nc*`, `1001.nc`, `2010.nc`, `3010.nc`, `4010.nc` and everything in
cached_outputs are from nappy 0.3.0 with CDMS and Python 2).

## 6. Mutation testing

`seeded/LOG.jsonl` has one line per attempt: a realistic bug is put into a definition in a scratch copy, everything
is rebuilt, and the theorems that fail are recorded. When a theorem survives a bug that makes its English claim false,
the theorem is tightened.
