{"id": "C01", "title": "Trailing {…} annotation is the only thing removed", "statement": "For any line, the right-strip helper either returns the line unchanged or returns the part before one final '{…}' group (a group with no '{', '^' or '}' inside, followed only by white space, and preceded by at least one character); it does the second exactly when the line has that shape, and the removed group is unique.", "quantifier": "every Unicode line", "why_tests_cant": "the shape of the line is unbounded; a test sees a handful of lines", "anchors": ["nappy/utils/right_strip.py: rightStripCurlyBraces"]}
{"id": "C02", "title": "Fixed-count lines: exactly n items or an error", "statement": "Reading n>=1 items from one header line returns exactly n values, the n white-space separated fields of the line in order, or raises; it never returns a different number of values.", "quantifier": "every line, every n>=1, each of the three item types", "why_tests_cant": "all lines and all n", "anchors": ["nappy/utils/text_parser.py: readItemsFromLine"]}
{"id": "C03", "title": "Values may be wrapped over lines in any way", "statement": "If the n values of a record are laid out over any number of consecutive non-blank lines, in any grouping and with any white space, the reader returns exactly these n values in order and consumes exactly these lines.", "quantifier": "every n>=1, every list of n tokens, every grouping of the tokens into lines, every spacing", "why_tests_cant": "the number of layouts is exponential in n and unbounded", "anchors": ["nappy/utils/text_parser.py: readItemsFromUnknownLines"]}
{"id": "C04", "title": "The multi-line reader never delivers a wrong number of values", "statement": "Reading n>=1 values from as many lines as needed returns exactly n values or raises an error; surplus values on the last line are always reported.", "quantifier": "every list of lines, every n", "why_tests_cant": "needs all line layouts: the code only notices a surplus when a single line holds more than n values", "anchors": ["nappy/utils/text_parser.py: readItemsFromUnknownLines"]}
{"id": "C05", "title": "Reading a header always terminates", "statement": "Opening any text file for reading terminates: it returns an object or raises an error, also when the file stops in the middle of the header.", "quantifier": "every file content, every truncation point", "why_tests_cant": "non-termination cannot be observed by a test; the truncation points and contents are unbounded", "anchors": ["nappy/utils/text_parser.py: readItemsFromUnknownLines", "nappy/na_file/na_file.py: _readCommonHeader, _readVariablesHeaderSection"]}
{"id": "C06", "title": "Blank-line policy of the data section", "statement": "readData accepts trailing blank lines and ignores them, and raises an error exactly when a blank line is followed by a non-blank data line; no data line is dropped or altered by the check.", "quantifier": "every list of data lines", "why_tests_cant": "all interleavings of blank and non-blank lines", "anchors": ["nappy/na_file/na_file.py: _checkForBlankLines"]}
{"id": "C07", "title": "The first number of a written file is its header length", "statement": "After a successful write with header, for every supported FFI the first item of the first line of the file is the number of lines that precede the data section, whatever NLHEAD value the dictionary carried, and the second item is the FFI.", "quantifier": "every dictionary accepted by write, all nine FFIs, every delimiter and first annotation text without line break, every float format", "why_tests_cant": "any combination of section lengths, embedded newlines and options", "anchors": ["nappy/na_file/na_file.py: _fixHeaderLength", "nappy/na_file/na_file_1001.py: writeHeader", "nappy/na_file/na_file_2010.py: writeHeader"]}
{"id": "C08", "title": "Readers find the data where the writer put it (line counting)", "statement": "The number of header lines recorded in a written file equals the number of lines Python's text-mode readline() delivers before the first data line, so that readData starts at the first data record.", "quantifier": "every dictionary accepted by write, including text fields with any control characters", "why_tests_cant": "text fields are arbitrary; the writer counts newline characters while the reader uses universal newlines", "anchors": ["nappy/na_file/na_file.py: _fixHeaderLength, readData"]}
{"id": "C09", "title": "FFI 1001 round trip", "statement": "Writing any well-formed FFI 1001 dictionary with a white-space delimiter and reading the file back (openNAFile, readData, getNADict) succeeds and returns the same header items, the same X and V up to the precision of the float format, and NLHEAD equal to the header length.", "quantifier": "every well-formed 1001 dictionary of any size, every white-space delimiter without line breaks, every float format that prints one numeric token", "why_tests_cant": "unbounded sizes and text content", "anchors": ["nappy/na_file/na_file_1001.py", "nappy/na_file/na_file.py", "nappy/nappy_api.py: openNAFile"]}
{"id": "C10", "title": "FFI 1010 round trip", "statement": "As for 1001, with NAUXV>=1 auxiliary variables: header items, X, A and V all come back.", "quantifier": "every well-formed 1010 dictionary, delimiter and float format as for 1001", "why_tests_cant": "unbounded sizes and text content", "anchors": ["nappy/na_file/na_file_1010.py"]}
{"id": "C11", "title": "FFI 1020 round trip", "statement": "As for 1010, with NVPM>=1 values per mark: header items, X, A, NVPM and V (NVPM values per X) all come back.", "quantifier": "every well-formed 1020 dictionary, delimiter and float format as for 1001", "why_tests_cant": "unbounded sizes and text content", "anchors": ["nappy/na_file/na_file_1020.py"]}
{"id": "C12", "title": "FFI 2010 round trip", "statement": "As for 1001, for FFI 2010: header items (DX, NX, NXDEF, axis values, names), X and V come back in the order of the dictionary.", "quantifier": "every well-formed 2010 dictionary, delimiter and float format as for 1001", "why_tests_cant": "unbounded sizes and text content", "anchors": ["nappy/na_file/na_file_2010.py", "nappy/utils/list_manipulator.py"]}
{"id": "C13", "title": "FFI 3010 and 4010 round trip", "statement": "As for 2010, for three and four independent variables with any axis lengths and any number NXDEF of listed axis values per axis.", "quantifier": "every well-formed 3010/4010 dictionary", "why_tests_cant": "the reader pairs axis lines with counts in the wrong order; visible only for unequal counts", "anchors": ["nappy/na_file/na_file_2010.py: readHeader, writeHeader", "nappy/na_file/na_file_3010.py", "nappy/na_file/na_file_4010.py"]}
{"id": "C14", "title": "FFI 2110 round trip", "statement": "As for 1001, for FFI 2110: X marks with their inner axes, NX, A and V come back.", "quantifier": "every well-formed 2110 dictionary, delimiter and float format as for 1001", "why_tests_cant": "unbounded sizes, varying inner lengths", "anchors": ["nappy/na_file/na_file_2110.py"]}
{"id": "C15", "title": "FFI 2160 round trip", "statement": "As for 2110, with a character independent variable and character auxiliary variables.", "quantifier": "every well-formed 2160 dictionary", "why_tests_cant": "unbounded sizes and text content", "anchors": ["nappy/na_file/na_file_2160.py"]}
{"id": "C16", "title": "FFI 2310 round trip", "statement": "As for 2110, for FFI 2310 with any number of primary variables and any inner lengths.", "quantifier": "every well-formed 2310 dictionary", "why_tests_cant": "writer and reader order the values differently; visible only for NV>=2 and inner length>=2", "anchors": ["nappy/na_file/na_file_2310.py: writeData, _readData2"]}
{"id": "C17", "title": "Second-generation files are identical", "statement": "If a file written by nappy is read and the resulting dictionary is written again with the same options, the second file is byte for byte the first one.", "quantifier": "every well-formed dictionary of FFI 1001, 1010, 1020 (and the other FFIs where the round trip holds)", "why_tests_cant": "fixed-point property over all dictionaries and formats", "anchors": ["nappy/na_file/na_file.py", "nappy/na_file/na_file_1001.py", "nappy/na_file/na_file_1010.py", "nappy/na_file/na_file_1020.py"]}
{"id": "C18", "title": "Writing does not change the caller's dictionary", "statement": "After openNAFile(name, 'w', na_dict) and write(), every item of na_dict has the value it had before.", "quantifier": "every dictionary, every FFI, every option", "why_tests_cant": "aliasing: the writer reverses lists of the dictionary in place", "anchors": ["nappy/na_file/na_file_2010.py: writeHeader, writeData", "nappy/na_file/na_file_2110.py: writeHeader", "nappy/na_file/na_file_2160.py: writeHeader", "nappy/na_file/na_file_2310.py: writeHeader"]}
{"id": "C19", "title": "Writing the same dictionary twice gives the same file", "statement": "Two successive writes of the same na_dict object to two files with the same options produce identical files.", "quantifier": "every dictionary, every FFI, every option", "why_tests_cant": "depends on hidden mutation of the dictionary by the first write", "anchors": ["nappy/na_file/na_file_2010.py: writeHeader"]}
{"id": "C20", "title": "no_header output is the data section of the full output", "statement": "write(no_header=True) produces exactly the text that write(no_header=False) produces after the header.", "quantifier": "every dictionary, every FFI", "why_tests_cant": "for 3010/4010 the data writer depends on a side effect of the header writer", "anchors": ["nappy/na_file/na_file.py: write", "nappy/na_file/na_file_2010.py: writeData"]}
{"id": "C21", "title": "Annotation only adds a leading column", "statement": "The annotated file has the same lines as the plain file, in the same order, each preceded by an annotation text and the delimiter; NLHEAD is the same.", "quantifier": "every dictionary, every FFI, every delimiter", "why_tests_cant": "all dictionaries; the annotator splits lines on more characters than the writer", "anchors": ["nappy/utils/common_utils.py: annotateLine, annotateLines", "nappy/na_file/na_file.py"]}
{"id": "C22", "title": "CSV files are rejected, never misread", "statement": "A file written with a delimiter that contains a comma and no white space (for example by convertNAToCSV) cannot be opened as NASA Ames: openNAFile raises, it never returns an object with wrong contents.", "quantifier": "every file whose first line has no white space inside", "why_tests_cant": "all file contents", "anchors": ["nappy/utils/text_parser.py: readItemsFromLine", "nappy/utils/common_utils.py: readFFI"]}
{"id": "C23", "title": "readData is idempotent", "statement": "Calling readData() a second time on an open file leaves every item of the dictionary as after the first call.", "quantifier": "every readable file of every FFI", "why_tests_cant": "hidden accumulation in X and DX; all files", "anchors": ["nappy/na_file/na_file.py: readData", "nappy/na_file/na_file_2010.py: _setupArrays, _readData1", "nappy/na_file/na_file_2310.py: _readData1"]}
{"id": "C24", "title": "Accepted data is rectangular (1001, 1010, 1020)", "statement": "Whatever the file contains, if readData succeeds then every primary variable has as many values as there are X marks (times NVPM for 1020) and so has every auxiliary variable.", "quantifier": "every file content accepted by readData", "why_tests_cant": "all (also malformed) inputs", "anchors": ["nappy/na_file/na_file_1001.py", "nappy/na_file/na_file_1010.py", "nappy/na_file/na_file_1020.py"]}
{"id": "C25", "title": "Accepted data has consistent inner shapes (2010 family, 2110, 2160, 2310)", "statement": "Whatever the file contains, if readData succeeds then for each variable there is one block per X mark and each block has the declared shape (NX for 2010/3010/4010; the mark's own NX for 2110, 2160 and 2310).", "quantifier": "every file content accepted by readData", "why_tests_cant": "all (also malformed) inputs", "anchors": ["nappy/na_file/na_file_2010.py", "nappy/na_file/na_file_2110.py", "nappy/na_file/na_file_2160.py", "nappy/na_file/na_file_2310.py"]}
{"id": "C26", "title": "Reading the data section always terminates", "statement": "readData on any file terminates with a result or an error: every record consumes at least one data line.", "quantifier": "every data section and every header values, including zero or negative counts", "why_tests_cant": "termination", "anchors": ["nappy/na_file/na_file.py: readData"]}
{"id": "C27", "title": "No data value is silently lost when reading", "statement": "If readData succeeds on a 1001 file, every numeric token of the data section is one of the returned X or V values, in order.", "quantifier": "every data section", "why_tests_cant": "surplus tokens at the end of a wrapped record are discarded", "anchors": ["nappy/utils/text_parser.py: readItemsFromUnknownLines", "nappy/na_file/na_file_1001.py: _readData1, _readData2"]}
{"id": "C28", "title": "One write per output object", "statement": "In any sequence of calls on an object, at most one write succeeds; write on an object opened for reading, or after close, or after a successful write raises and leaves the file content unchanged.", "quantifier": "every sequence of write and close calls with any dictionaries and options", "why_tests_cant": "all histories", "anchors": ["nappy/na_file/na_file.py: __init__, write, close"]}
{"id": "C29", "title": "The header is written all or nothing", "statement": "If building the header fails, no part of the header is in the file.", "quantifier": "every dictionary and option", "why_tests_cant": "every failure point of the header writer", "anchors": ["nappy/na_file/na_file.py: _writeCommonHeader", "nappy/na_file/na_file_1001.py: writeHeader", "nappy/na_file/na_file_2160.py: writeHeader"]}
{"id": "C30", "title": "Retrying after a failed write gives a valid file", "statement": "If write() raised, a later successful write() on the same object leaves exactly the file a single successful write would have produced.", "quantifier": "every failing first attempt, every retry", "why_tests_cant": "all failure points", "anchors": ["nappy/na_file/na_file.py: write", "nappy/na_file/na_file_1001.py: writeData"]}
{"id": "C31", "title": "Crash during write leaves a prefix", "statement": "At any point during write() the content of the file on disk is a prefix of the text that the completed write produces; when write() has returned, all of it has been handed to the operating system.", "quantifier": "every crash point, every flushing behaviour of the buffer, every dictionary", "why_tests_cant": "all crash points and buffer schedules", "anchors": ["nappy/na_file/na_file.py: write", "nappy/na_file/na_file_1001.py: writeData"]}
{"id": "C32", "title": "chooseFFI picks a file class with the right number of independent variables", "statement": "For a dictionary with NIV independent variables, chooseFFI returns one of the nine supported FFIs and its leading digit is NIV, or raises when NIV is not 1 to 4.", "quantifier": "every dictionary shape", "why_tests_cant": "all dictionaries; the code indexes into X", "anchors": ["nappy/utils/common_utils.py: chooseFFI"]}
{"id": "C33", "title": "chooseFFI recovers the FFI of what was read", "statement": "If the FFI item is removed from a dictionary that was read from (or can be written as) a file of FFI f, chooseFFI returns f.", "quantifier": "every well-formed dictionary of each FFI", "why_tests_cant": "all sizes, also single-mark files", "anchors": ["nappy/utils/common_utils.py: chooseFFI"]}
{"id": "C34", "title": "Unsupported FFIs are rejected", "statement": "openNAFile on a file whose FFI is not one of the nine supported values raises and creates no object; on a supported FFI the object's NIV is the FFI's leading digit.", "quantifier": "every first line", "why_tests_cant": "all integers", "anchors": ["nappy/nappy_api.py: openNAFile", "nappy/utils/common_utils.py: getNAFileClass, readFFI"]}
{"id": "C35", "title": "Variable name and units are separated correctly", "statement": "For an item of the form 'name (units)' on one line with no other parentheses, the getters return the trimmed name and the units; for an item without parentheses they return the trimmed item and no units; nothing else is lost except surrounding white space.", "quantifier": "every string", "why_tests_cant": "regular expression behaviour on all strings", "anchors": ["nappy/na_file/na_core.py: _attemptVarAndUnitsMatch"]}
{"id": "C36", "title": "Variable getters cover every variable", "statement": "getVariables() and getAuxVariables() return one entry per variable in order with its own name, units, missing value and scale factor, for every dictionary that passed the header reader.", "quantifier": "every header accepted by the reader", "why_tests_cant": "all headers", "anchors": ["nappy/na_file/na_core.py: getVariable, getVariables, getAuxVariable, getAuxVariables"]}
{"id": "C37", "title": "Dictionary view is complete", "statement": "setNADict followed by getNADict returns all recognised items that are not None, with equal values, and later changes to the argument do not affect the object.", "quantifier": "every dictionary", "why_tests_cant": "all subsets of keys", "anchors": ["nappy/na_file/na_core.py: getNADict, setNADict"]}
{"id": "C38", "title": "Default output name replaces the extension", "statement": "getFileNameWithNewExtension('name.ext', 'nc') returns 'name.nc' when ext has at most three characters.", "quantifier": "every file name", "why_tests_cant": "all names", "anchors": ["nappy/utils/common_utils.py: getFileNameWithNewExtension"]}
{"id": "C39", "title": "Comma separated options are parsed faithfully", "statement": "A string made by joining an even number of comma-free items with commas is turned into exactly the list (or dictionary) of consecutive pairs; any string with an odd number of items is rejected.", "quantifier": "every list of items", "why_tests_cant": "all lengths", "anchors": ["nappy/utils/common_utils.py: makeListFromCommaSepString, makeDictFromCommaSepString"]}
{"id": "C40", "title": "Size-limited output is a partition of the data", "statement": "When a 1001 dictionary with more than size_limit rows is written, the written files contain consecutive, non-overlapping blocks of at most size_limit rows whose concatenation is the original data, numbered IVOL=1..NVOL with NVOL the number of files, and no file name is used twice.", "quantifier": "every number of rows, every size_limit>=1", "why_tests_cant": "unbounded rows, boundary cases", "anchors": ["nappy/nc_interface/xarray_to_na.py: _writeNAFileSubsetsWithinSizeLimit", "nappy/utils/common_utils.py: modifyNADictCopy"]}
{"id": "C41", "title": "Size-limited writing reports each file once and terminates", "statement": "The list of files reported after a size-limited write has exactly one entry per file, and the splitting loop terminates for every size_limit value.", "quantifier": "every number of rows, every integer size_limit", "why_tests_cant": "all values, including zero and negative", "anchors": ["nappy/nc_interface/xarray_to_na.py: _writeNAFileSubsetsWithinSizeLimit"]}
{"id": "C42", "title": "Distinct output names for multi-file conversions", "statement": "constructNAFileNames returns as many names as there are dictionaries, pairwise different, and for a name with an extension keeps directory, stem and extension.", "quantifier": "every base name, every number of dictionaries", "why_tests_cant": "unbounded count", "anchors": ["nappy/nc_interface/xarray_to_na.py: constructNAFileNames"]}
{"id": "C43", "title": "modifyNADictCopy changes only what was asked", "statement": "The result has the requested items X, V, NVOL, IVOL, and every other item equal to the input's; the input is not changed.", "quantifier": "every dictionary", "why_tests_cant": "all dictionaries", "anchors": ["nappy/utils/common_utils.py: modifyNADictCopy"]}
{"id": "C44", "title": "Comparison is reflexive and symmetric", "statement": "compareSections of a section with itself reports equality, and swapping the two arguments (with their delimiters) does not change the verdict.", "quantifier": "every list of lines", "why_tests_cant": "all texts", "anchors": ["nappy/utils/compare_na.py: compareSections"]}
{"id": "C45", "title": "Comparison detects every difference in values or length", "statement": "compareSections reports equality only if the two sections have the same number of lines and the same items on each line.", "quantifier": "every pair of sections", "why_tests_cant": "the loop stops at the shorter section", "anchors": ["nappy/utils/compare_na.py: compareSections"]}
{"id": "C46", "title": "Approximate comparison has the documented 1% tolerance", "statement": "With approx_equal, two numbers are reported different whenever they differ by more than 1%.", "quantifier": "every pair of numbers", "why_tests_cant": "all numbers; the ratio test is inverted", "anchors": ["nappy/utils/compare_na.py: compareSections"]}
{"id": "C47", "title": "File comparison takes header and body into account", "statement": "compNAFiles(header=True, body=True) reports equality only if both header and body sections compare equal.", "quantifier": "every pair of files", "why_tests_cant": "all files", "anchors": ["nappy/utils/compare_na.py: compNAFiles"]}
{"id": "C48", "title": "Nested list building and writing are inverse", "statement": "Filling an n-dimensional nested list from a flat sequence gives element (i1,...,ik) = sequence[row-major index], and writing the nested list emits the sequence again, innermost dimension per line.", "quantifier": "every shape, every dimension count, every data", "why_tests_cant": "unbounded dimensions", "anchors": ["nappy/utils/list_manipulator.py: recursiveListPopulator, recursiveListWriter"]}
{"id": "C49", "title": "No variable is lost in a NetCDF to NASA Ames conversion", "statement": "The conversion loop terminates, and every input variable of rank >= 1 appears in exactly one of the produced dictionaries (as main or auxiliary variable).", "quantifier": "every list of variables with any axes", "why_tests_cant": "all variable sets", "anchors": ["nappy/nc_interface/na_content_collector.py: _analyseVariables", "nappy/nc_interface/xarray_to_na.py: convert"]}
{"id": "C50", "title": "Variables are only merged when their axes agree", "statement": "Two variables are put in the same output file only if their axes have the same length, name and values.", "quantifier": "every pair of variables", "why_tests_cant": "all axis values; the element-wise test is inverted", "anchors": ["nappy/nc_interface/xarray_utils.py: areAxesIdentical", "nappy/nc_interface/na_content_collector.py: _analyseVariables"]}
{"id": "C51", "title": "A requested FFI is honoured or refused", "statement": "When the caller asks for an FFI, the produced dictionary has that FFI or an error is raised; without a request the FFI has as many independent variables as the main variable has axes.", "quantifier": "every collected content and every request", "why_tests_cant": "all combinations", "anchors": ["nappy/nc_interface/na_content_collector.py: _decideFileFormatIndex"]}
{"id": "C52", "title": "Comment counts agree with the comments", "statement": "In every converted dictionary NSCOML and NNCOML are the lengths of SCOM and NCOM and no comment line is blank, so that the header that is written is readable.", "quantifier": "every set of global and variable attributes", "why_tests_cant": "all attribute sets", "anchors": ["nappy/nc_interface/na_content_collector.py: _defineNAComments"]}
{"id": "C53", "title": "Merging user comments keeps all comments in order", "statement": "Inserting, replacing or appending user comments keeps the start/end marker lines outermost and keeps all existing comments in order (unless replaced).", "quantifier": "every list of existing and new comments", "why_tests_cant": "all lists", "anchors": ["nappy/nc_interface/xarray_to_na.py: _cleanWrapComments"]}
{"id": "C54", "title": "Scaling keeps missing data recognisable", "statement": "When a variable is converted, a value equal to the missing value in the file is equal to the _FillValue of the converted variable.", "quantifier": "every scale factor and missing value", "why_tests_cant": "all numbers", "anchors": ["nappy/nc_interface/na_to_xarray.py: _convertNAToXarrayVariable"]}
{"id": "C55", "title": "Independent variables are expanded to full length", "statement": "After normalisation each axis has exactly NX values; listed values are kept when NXDEF=NX, otherwise value k is the first value plus k*DX; the operation is idempotent.", "quantifier": "every axis length, NXDEF and DX", "why_tests_cant": "unbounded lengths", "anchors": ["nappy/na_file/na_file_2010.py: _normalizeIndVars"]}
{"id": "C56", "title": "Axis compression in output is loss-free", "statement": "For a uniformly spaced axis the written axis definition (first values plus DX) expands to the original axis when read and normalised; for any other axis all values are written.", "quantifier": "every axis", "why_tests_cant": "all lengths and spacings", "anchors": ["nappy/nc_interface/na_content_collector.py: _appendAxisDefinition", "nappy/na_file/na_file_2010.py: _normalizeIndVars"]}
{"id": "C57", "title": "1020 axis expansion", "statement": "Normalising the independent variable of a 1020 file yields NVPM values per mark, x + i*DX.", "quantifier": "every 1020 file", "why_tests_cant": "all files", "anchors": ["nappy/na_file/na_file_1020.py: _normalizeIndVars"]}
{"id": "C58", "title": "Line comparison reports exactly the differing lines", "statement": "compFiles reports a line number exactly when both files have that line and the two lines differ.", "quantifier": "every pair of files", "why_tests_cant": "all files", "anchors": ["nappy/utils/compare.py: compFiles"]}
{"id": "C59", "title": "Requested variables are the converted ones", "statement": "With a list of variables, NADictToXarrayObjects converts exactly the requested main and auxiliary variables, in the requested order; an unknown name is an error.", "quantifier": "every file and every list of names or numbers", "why_tests_cant": "all lists", "anchors": ["nappy/nc_interface/na_to_xarray.py: _convertXarrayVariables", "nappy/nc_interface/na_to_xarray.py: _convertXarrayAuxVariables"]}
{"id": "C60", "title": "No variable is lost in the NetCDF file", "statement": "Every variable that was converted from the NASA Ames file is a variable of the NetCDF file that writeNCFile writes.", "quantifier": "every set of converted variables", "why_tests_cant": "all names", "anchors": ["nappy/nc_interface/na_to_nc.py: writeNCFile", "nappy/nc_interface/na_to_xarray.py: _convertNAToXarrayVariable"]}
{"id": "C61", "title": "Global attributes of the caller survive", "statement": "Every global attribute that the caller of NADictToXarrayObjects gives is in the result with the given value.", "quantifier": "every list of attributes", "why_tests_cant": "all lists", "anchors": ["nappy/nc_interface/na_to_xarray.py: _mapNACommentsToGlobalAttributes"]}
{"id": "C62", "title": "Converted variables have safe names", "statement": "Unless the caller renames it, the name of a converted variable has no white space and none of the signs that are not allowed in NetCDF names.", "quantifier": "every name in the NASA Ames file", "why_tests_cant": "all names", "anchors": ["nappy/nc_interface/na_to_xarray.py: safe_nc_name", "nappy/nc_interface/na_to_xarray.py: _convertNAToXarrayVariable"]}
{"id": "C63", "title": "Exactly the unsupported file formats are refused", "statement": "Files with FFI 2110, 2160 and 2310 are refused by NADictToXarrayObjects, files with the other six are converted.", "quantifier": "every readable file", "why_tests_cant": "all files", "anchors": ["nappy/nc_interface/na_to_xarray.py: NADictToXarrayObjects.__init__", "nappy/na_file/na_file_1020.py: _normalizeIndVars"]}
{"id": "C64", "title": "Scaling creates no missing values", "statement": "A value of the NASA Ames file that is not the missing value is not missing in the converted variable.", "quantifier": "every value, scale factor and missing value", "why_tests_cant": "all numbers", "anchors": ["nappy/nc_interface/na_to_xarray.py: _convertNAToXarrayVariable"]}
{"id": "C65", "title": "Ignored header lines change nothing else", "statement": "A file with k extra lines in front, read with ignore_header_lines=k, gives the dictionary of the file without them, except that IGN holds the extra lines and NLHEAD is larger by k; or both readings fail with the same error.", "quantifier": "every file whose NLHEAD is not negative, every list of extra lines", "why_tests_cant": "all files, all FFIs, any number of lines", "anchors": ["nappy/na_file/na_file.py: _readCommonHeader", "nappy/na_file/na_file.py: readData", "nappy/utils/common_utils.py: readFFI"]}
{"id": "C66", "title": "The style of the line ends does not matter", "statement": "A file with CR LF or CR line ends is read to the same result as the file with LF line ends.", "quantifier": "every file", "why_tests_cant": "all files", "anchors": ["nappy/na_file/na_file.py: NAFile.__init__", "nappy/utils/text_parser.py: readItemsFromLine"]}
{"id": "C67", "title": "The delimiter only separates", "statement": "Writing a dictionary with two different delimiters has the same outcome, leaves the same dictionary, and gives files of the same rows of items; only the text between the items of a row differs.", "quantifier": "every dictionary, class and pair of delimiters", "why_tests_cant": "all dictionaries, all classes", "anchors": ["nappy/na_file/na_file.py: writeHeader", "nappy/na_file/na_file_1001.py: writeData", "nappy/nappy_api.py: convertNAToCSV"]}
{"id": "C68", "title": "A NASA Ames file and its CSV file compare as equal", "statement": "compNAFiles reports a NASA Ames file and the CSV file written from the same dictionary (delimiter_1 four spaces, delimiter_2 a comma) to be equal, whichever sections and number comparison are chosen.", "quantifier": "every dictionary", "why_tests_cant": "all dictionaries, all options", "anchors": ["nappy/utils/compare_na.py: compNAFiles", "nappy/utils/compare_na.py: compareSections"]}
{"id": "C69", "title": "A NASA Ames file and its conversion to CSV have the same rows", "statement": "convertNAToCSV writes the rows of items that writing the read dictionary as NASA Ames would write, separated by commas, with or without header as asked for, or fails with the same error.", "quantifier": "every readable file, every name", "why_tests_cant": "all files of all FFIs", "anchors": ["nappy/nappy_api.py: convertNAToCSV"]}
{"id": "C70", "title": "One variable of a NASA Ames file", "statement": "getXarrayVariableFromNA returns, for a number or a name in VNAME, the variable of that number or name among the variables of readXarrayObjectsFromNA, and refuses other names.", "quantifier": "every readable file, every number and name", "why_tests_cant": "all files and names", "anchors": ["nappy/nappy_api.py: getXarrayVariableFromNA", "nappy/nappy_api.py: readXarrayObjectsFromNA", "nappy/nc_interface/na_to_xarray.py: convert"]}
{"id": "C71", "title": "The asked for variables of a NetCDF file are converted", "statement": "convertNCToNA converts exactly the variables of the file that are asked for by var_ids, not excluded (up to case and underscores), and not the bounds of another variable, in the order of the file; an id that is not in the file is an error.", "quantifier": "every NetCDF file and selection", "why_tests_cant": "all files and selections", "anchors": ["nappy/nc_interface/nc_to_na.py: _readXarrayFile", "nappy/utils/common_utils.py: fuzzy_contains"]}
{"id": "C72", "title": "Conversion to CSV has the rows of the conversion to NASA Ames", "statement": "convertNCToCSV writes, to the given CSV file or to the default one, the rows that convertNCToNA writes for the same arguments, separated by commas.", "quantifier": "every NetCDF file and all arguments", "why_tests_cant": "all files and arguments", "anchors": ["nappy/nappy_api.py: convertNCToCSV", "nappy/nappy_api.py: convertNCToNA"]}
{"id": "C73", "title": "The announced names are the names of the files written", "statement": "convertNCToNA with only_return_file_names writes nothing and returns the names of the files that it writes without that argument; it writes no other file.", "quantifier": "every NetCDF file and all arguments", "why_tests_cant": "all files and arguments", "anchors": ["nappy/nappy_api.py: convertNCToNA", "nappy/nc_interface/xarray_to_na.py: constructNAFileNames", "nappy/nc_interface/xarray_to_na.py: writeNAFiles"]}
{"id": "C74", "title": "Attributes survive the repair of integers", "statement": "fix_attrs keeps the names and the values of all attributes.", "quantifier": "every list of attributes", "why_tests_cant": "all attributes", "anchors": ["nappy/nc_interface/na_to_nc.py: fix_ints", "nappy/nc_interface/na_to_nc.py: fix_attrs"]}
{"id": "C75", "title": "Every value of a converted variable is in the dictionary", "statement": "Each dictionary made from xarray variables has in VNAME, VMISS, VSCAL and V one entry per main variable, in order, and nothing else: its name, its missing value, 1, and its array with the missing value in place of NaN. The same holds for the auxiliary variables in ANAME, AMISS, ASCAL and A, after the entries that describe the second axis in the formats 2110 and 2310.", "quantifier": "every list of variables, every requested FFI", "why_tests_cant": "all variables of all shapes", "anchors": ["nappy/nc_interface/na_content_collector.py: _defineNAVars", "nappy/nc_interface/na_content_collector.py: _defineNAAuxVars", "nappy/nc_interface/xarray_utils.py: getArrayAsList"]}
{"id": "C76", "title": "Missing cells and only these hold the missing value", "statement": "In the dictionary made from xarray variables no value is NaN, and a cell has the missing value exactly if the cell of the variable is missing.", "quantifier": "every variable, every fill value", "why_tests_cant": "all numbers", "anchors": ["nappy/nc_interface/na_content_collector.py: _defineNAVars", "nappy/nc_interface/xarray_utils.py: getMissingValue", "nappy/nc_interface/xarray_utils.py: getArrayAsList"]}
{"id": "C77", "title": "Names of all axes and values of the first axis are in the dictionary", "statement": "XNAME holds the names of all axes of the variables in order. X holds all values of the first axis, as a list of numbers for 1001, as its first element for 2010, 3010 and 4010, and paired with the second axis for 2110 and 2310. DX holds its spacing if that is constant, otherwise 0.", "quantifier": "every list of variables, every requested FFI", "why_tests_cant": "all axes", "anchors": ["nappy/nc_interface/na_content_collector.py: _defineNAVars", "nappy/nc_interface/na_content_collector.py: _appendAxisDefinition"]}
{"id": "C78", "title": "Converted variables survive a NASA Ames file", "statement": "A dictionary of FFI 1001 made from xarray variables can be written and read; the axis, the names, the missing values and all values of all main variables come back, numbers as printed, missing cells as the printed missing value.", "quantifier": "every list of one-dimensional variables, every header from global attributes", "why_tests_cant": "all variables and attributes", "anchors": ["nappy/nc_interface/na_content_collector.py: collectNAContent", "nappy/na_file/na_file_1001.py: writeData", "nappy/na_file/na_file_1001.py: readData"]}
{"id": "C79", "title": "Missing cells stay missing through a file", "statement": "When a converted dictionary is written and read, a cell of a variable that is missing has the missing value VMISS that was read, and a cell with a value has the value as printed.", "quantifier": "every variable and missing value", "why_tests_cant": "all missing values, also those with many digits", "anchors": ["nappy/nc_interface/xarray_utils.py: getMissingValue", "nappy/na_file/na_file_1001.py: writeData", "nappy/na_file/na_file.py: _writeVariablesHeaderSection"]}
{"id": "C80", "title": "Title, source and institution are in the header", "statement": "Every dictionary made from xarray variables has the global attribute title as MNAME, source as SNAME, and institution, with line breaks as two blanks, as ONAME and ORG; an institution that was made of ONAME and ORG of a NASA Ames file gives these again; without the attribute there is no entry.", "quantifier": "every set of global attributes, every list of variables", "why_tests_cant": "all texts", "anchors": ["nappy/nc_interface/na_content_collector.py: _defineNAGlobals"]}
{"id": "C81", "title": "The four names survive NASA Ames to xarray and back", "statement": "ONAME, ORG, SNAME and MNAME of a dictionary that is converted to xarray objects are in every dictionary that is made with the resulting global attributes, if ONAME and ORG are single lines and ORG does not start with white space or contain the mark of ONAME.", "quantifier": "every dictionary, every settings without global attributes of the caller", "why_tests_cant": "all texts", "anchors": ["nappy/nc_interface/na_to_xarray.py: _mapNACommentsToGlobalAttributes", "nappy/nc_interface/na_content_collector.py: _defineNAGlobals"]}
{"id": "C82", "title": "Values survive NASA Ames to xarray and back", "statement": "A variable made from a NASA Ames dictionary that is a main variable of a dictionary again has there the same missing value, the scale factor 1, and every value multiplied by its scale factor.", "quantifier": "every dictionary, request and settings", "why_tests_cant": "all values of all shapes", "anchors": ["nappy/nc_interface/na_to_xarray.py: _convertNAToXarrayVariable", "nappy/nc_interface/na_content_collector.py: _defineNAVars"]}
{"id": "C83", "title": "Options of nc2na mean what they say", "statement": "For every sequence of documented options of nc2na, in either spelling (value attached or in the next word), parseArgs returns exactly the values given, the last one if an option is given more than once, and the documented defaults for the rest; without an input file the program ends with the usage text.", "quantifier": "every sequence of options and values", "why_tests_cant": "all command lines", "anchors": ["nappy/script/nc2na.py: parseArgs", "nappy/script/nc2na.py: nc2na"]}
{"id": "C84", "title": "The order of the options of nc2na does not matter", "statement": "Two command lines of nc2na with the same options in different order and spelling, none given twice, have the same meaning.", "quantifier": "every two permuted command lines", "why_tests_cant": "all permutations", "anchors": ["nappy/script/nc2na.py: parseArgs"]}
{"id": "C85", "title": "No word of the command line of nc2na is ignored", "statement": "A word of the command line of nc2na that is neither an option nor the value of one is reported.", "quantifier": "every command line", "why_tests_cant": "all command lines", "anchors": ["nappy/script/nc2na.py: parseArgs"]}
{"id": "C86", "title": "nc2csv separates by commas", "statement": "Every run of nc2csv that does not set a delimiter uses a comma and otherwise has the meaning of the same command line of nc2na.", "quantifier": "every command line", "why_tests_cant": "all command lines", "anchors": ["nappy/script/nc2csv.py: nc2csv", "setup.py: entry_points"]}
{"id": "C87", "title": "Options of na2nc mean what they say", "statement": "For every sequence of documented options of na2nc, in either spelling, parseArgs returns exactly the values given, the last one if an option is given more than once, and the defaults for the rest; without -o the output has the name of the input with .na at the end replaced by .nc, or with .nc appended.", "quantifier": "every sequence of options and values", "why_tests_cant": "all command lines", "anchors": ["nappy/script/na2nc.py: parseArgs"]}
{"id": "C88", "title": "na2nc does not overwrite its input", "statement": "Unless an output file is given, the file that na2nc writes is not the file that it reads, and its name ends in .nc.", "quantifier": "every sequence of options and values", "why_tests_cant": "all command lines", "anchors": ["nappy/script/na2nc.py: parseArgs"]}
{"id": "C89", "title": "Append mode keeps the variables of the NetCDF file", "statement": "convertNAToNC with mode a adds the converted variables to the NetCDF file and keeps the others; with mode w the file holds exactly the converted variables and attributes; no other file is changed, and an error changes none.", "quantifier": "every NASA Ames file, all settings, every disk", "why_tests_cant": "all files and settings", "anchors": ["nappy/nappy_api.py: convertNAToNC", "nappy/nc_interface/na_to_nc.py: writeNCFile"]}
{"id": "C90", "title": "na2nc writes one file with what was asked for", "statement": "A run of na2nc that succeeds has read the file given with -i and written exactly one NetCDF file, the one given with -o or the default one; it holds, once each, the variables and global attributes that the conversion with the given settings makes, of several with the same name the last one, and nothing else. A run that does not succeed changes no file.", "quantifier": "every sequence of options, every NASA Ames file, every disk", "why_tests_cant": "all command lines and files", "anchors": ["nappy/script/na2nc.py: na2nc", "nappy/nappy_api.py: convertNAToNC", "nappy/nc_interface/na_to_nc.py: writeNCFile"]}
{"id": "C91", "title": "nc2na reports what it writes", "statement": "A run of nc2na that succeeds has written every file that it reports and changed no other; the same run with --names-only anywhere on the command line reports the same names and writes nothing.", "quantifier": "every sequence of options, every NetCDF file, every disk", "why_tests_cant": "all command lines and files", "anchors": ["nappy/script/nc2na.py: nc2na", "nappy/nappy_api.py: convertNCToNA"]}
{"id": "C92", "title": "Variables come back from a NASA Ames file", "statement": "Variables of one dimension that go into a NASA Ames file and from there back to xarray variables come back, as many and in the same order, with the values of their axis, their values as printed, and their missing value in the place of the missing cells.", "quantifier": "all variables, global attributes and number formats", "why_tests_cant": "all datasets", "anchors": ["nappy/nc_interface/xarray_to_na.py: XarrayToNA", "nappy/nc_interface/na_content_collector.py: NAContentCollector", "nappy/na_file/na_file_1001.py: NAFile1001", "nappy/nc_interface/na_to_xarray.py: NADictToXarrayObjects"]}
{"id": "C93", "title": "Names and units come back from a NASA Ames file", "statement": "The name and the units of a variable that goes into a NASA Ames file and back are written as name (units) and come back as the name, the long name and the units of the variable.", "quantifier": "all variables, names and units", "why_tests_cant": "all names and units", "anchors": ["nappy/nc_interface/xarray_utils.py: getBestName", "nappy/na_file/na_core.py: _attemptVarAndUnitsMatch", "nappy/nc_interface/na_to_xarray.py: _convertNAToXarrayVariable"]}
{"id": "C94", "title": "A configuration file is read as it stands", "statement": "makeConfigDict returns for a configuration file exactly its sections and options in their order, values with all their lines; every __space__ in a value is a blank, a name or value with & is the tuple of its parts, remarks count for nothing.", "quantifier": "every file of sections, options and remarks", "why_tests_cant": "all configuration files", "anchors": ["nappy/utils/parse_config.py: makeConfigDict"]}
{"id": "C95", "title": "Callers do not disturb each other's configuration", "statement": "getConfigDict returns the content of the file it is asked for, whatever other callers have asked for before and whatever they did to the dictionaries that they got.", "quantifier": "all sequences of calls and changes", "why_tests_cant": "all histories", "anchors": ["nappy/utils/parse_config.py: getConfigDict"]}
{"id": "C96", "title": "Header items come from the command line, then from the local attributes, then from the file", "statement": "The dictionaries that are written to NASA Ames files have the header items of the command line, of the local attributes those that the command line does not mention, and are otherwise as converted from the NetCDF file; with the distributed configuration nothing is replaced that nobody asked for.", "quantifier": "all dictionaries, overriding items and local attributes", "why_tests_cant": "all runs", "anchors": ["nappy/nc_interface/xarray_to_na.py: writeNAFiles", "nappy/utils/parse_config.py: makeLocalAttributesConfigDict"]}
{"id": "C97", "title": "Every file of annotations can be used", "statement": "With the annotations of any annotations file, annotated files can be written from the same dictionaries as plain files, and are the plain files with annotations inserted.", "quantifier": "every annotations file and dictionary", "why_tests_cant": "all files and dictionaries", "anchors": ["nappy/utils/parse_config.py: makeAnnotationsConfigDict", "nappy/na_file/na_file.py: NAFile"]}
{"id": "C98", "title": "A comment given on the command line is a comment of the file", "statement": "A text given for SCOM or NCOM with --overwrite-metadata is one of the special or normal comments of every file that is written, and the comments that were there before are kept unless the rule is to replace them.", "quantifier": "all dictionaries, texts and comment rules", "why_tests_cant": "all comments and rules", "anchors": ["nappy/nc_interface/xarray_to_na.py: writeNAFiles", "nappy/nc_interface/xarray_to_na.py: _cleanWrapComments"]}
{"id": "C99", "title": "What has been read once does not change any more", "statement": "When a well-formed dictionary is written to a NASA Ames file, the file is read, written again and read again, the two dictionaries that were read agree in every item, and the second and all later files are identical.", "quantifier": "all well-formed dictionaries of every file format index", "why_tests_cant": "all records, unboundedly many values; the chain of three files", "anchors": ["nappy/na_file/na_file_1001.py", "nappy/na_file/na_file_2010.py", "nappy/na_file/na_file_2310.py", "nappy/na_file/na_file.py"]}
{"id": "C100", "title": "What was read can be written again", "statement": "A dictionary that was read from a file can be written to a NASA Ames file; reading that file gives the same dictionary, apart from the header length and the precision of the output format, and writing once more gives the same file.", "quantifier": "every readable file, whoever wrote it", "why_tests_cant": "all texts that are readable at all", "anchors": ["nappy/na_file/na_file.py: NAFile", "nappy/na_file/na_file_1001.py", "nappy/na_file/na_file_2010.py", "nappy/na_file/na_file_2110.py"]}
{"id": "C101", "title": "All differences between two directories are reported", "statement": "compare.py with two directories reports for every entry of the first one, at any depth, that it is left out, that the second one does not have it, or the numbers of the lines that differ; every difference between the directories is reported.", "quantifier": "all pairs of directory trees", "why_tests_cant": "all trees of any depth", "anchors": ["nappy/utils/compare.py: compDirs", "nappy/utils/compare.py: compFiles"]}
{"id": "C102", "title": "A directory is the same as itself", "statement": "Comparing a directory with one of the same content runs to the end, reports no missing entry and no line, and every file whose name is not left out is compared.", "quantifier": "all directory trees", "why_tests_cant": "all trees of any depth", "anchors": ["nappy/utils/compare.py: compDirs", "nappy/utils/compare.py: compFiles"]}
{"id": "C103", "title": "Options of compare_na", "statement": "Every option of compare_na, short or long, in any order and repeated, has the effect that the usage text describes; header-only with body-only, and anything but two items, end the program.", "quantifier": "all sequences of options", "why_tests_cant": "all command lines", "anchors": ["nappy/utils/compare_na.py: parseArgs"]}
{"id": "C104", "title": "compare_na compares", "statement": "The program compare_na compares the two files or directories it is given.", "quantifier": "all command lines and files", "why_tests_cant": "all runs", "anchors": ["nappy/utils/compare_na.py: main", "nappy/utils/compare_na.py: compareNA"]}
{"id": "C105", "title": "Lines in front of the header are kept", "statement": "When a file was read with a number of lines in front of the header ignored, the dictionary holds these lines, and writing it gives a file with the same lines in front, which can be read the same way.", "quantifier": "all files of every file format index and every number of ignored lines", "why_tests_cant": "all texts in front, all files", "anchors": ["nappy/na_file/na_file.py: NAFile", "nappy/na_file/na_file_2160.py: writeHeader"]}
{"id": "C106", "title": "Variables of two to four dimensions survive the file", "statement": "Variables over two, three or four dimensions that are converted to a NASA Ames dictionary (FFI 2010, 3010, 4010), written to a file and read back have the same names, axes, lengths, missing values and values, apart from the precision of the output format.", "quantifier": "all numeric variables, axes and values", "why_tests_cant": "all lengths of the axes and all values", "anchors": ["nappy/nc_interface/na_content_collector.py: NAContentCollector", "nappy/nc_interface/xarray_to_na.py: XarrayDatasetToNA", "nappy/na_file/na_file_2010.py: NAFile2010", "nappy/na_file/na_file_3010.py: NAFile3010"]}
{"id": "C107", "title": "Variables of two to four dimensions come back", "statement": "Variables over two, three or four dimensions, and their auxiliary variables, that go from NetCDF to a NASA Ames file and back have the same axes, values and missing values, apart from the precision of the output format.", "quantifier": "all numeric variables, axes and values", "why_tests_cant": "all lengths of the axes and all values; the whole way through both converters and the file", "anchors": ["nappy/nc_interface/na_content_collector.py: NAContentCollector", "nappy/nc_interface/na_to_xarray.py: NADictToXarrayObjects", "nappy/na_file/na_file_2010.py: NAFile2010"]}
{"id": "C108", "title": "Variables of two dimensions survive the formats 2110 and 2310", "statement": "Variables over two dimensions that are converted on request to FFI 2110 or 2310, written to a file and read back have the same names, axes, lengths, missing values and values, apart from the precision of the output format.", "quantifier": "all numeric variables, axes and values", "why_tests_cant": "all lengths of the axes and all values", "anchors": ["nappy/nc_interface/na_content_collector.py: NAContentCollector", "nappy/nc_interface/xarray_to_na.py: XarrayDatasetToNA", "nappy/na_file/na_file_2110.py: NAFile2110", "nappy/na_file/na_file_2310.py: NAFile2310"]}
{"id": "C109", "title": "The description of the second axis names the second axis", "statement": "The auxiliary variables that describe the second axis in the formats 2110 and 2310 (the number of its values, its first value and its step) are named after that axis.", "quantifier": "all converted variables of two dimensions", "why_tests_cant": "all axes and names", "anchors": ["nappy/nc_interface/na_content_collector.py: NAContentCollector"]}
{"id": "C110", "title": "FFI 2310 is offered for evenly spaced axes", "statement": "A request for FFI 2310 is accepted for a variable of two dimensions exactly if the values of its second axis are evenly spaced.", "quantifier": "all axes of any length, exact and floating point values", "why_tests_cant": "all values of an axis, rounding of every step", "anchors": ["nappy/nc_interface/xarray_utils.py: isUniformlySpaced", "nappy/nc_interface/na_content_collector.py: _analyseVariables"]}
{"id": "C111", "title": "Header numbers survive the file exactly", "statement": "A floating point number that is printed with str() and read with float() is the same number, so scale factors, missing values and steps in the header come back exactly; every int is read as the nearest float.", "quantifier": "all IEEE 754 double precision numbers, with subnormal numbers, signed zeros, infinities and nan", "why_tests_cant": "2^64 numbers", "anchors": ["nappy/utils/text_parser.py: readItemsFromLine", "nappy/na_file/na_file.py: _writeVariablesHeaderSection", "nappy/na_file/na_file.py: _readVariablesHeaderSection"]}
{"id": "C112", "title": "Data values survive to the precision of the float format and then settle", "statement": "A data value printed with the default float format and read back is the value rounded to ten digits (to the nearest double), and printing what was read gives the same text.", "quantifier": "all IEEE 754 double precision numbers", "why_tests_cant": "2^64 numbers, and the numbers for which it fails are next to the largest", "anchors": ["nappy/na_file/na_file.py: write", "nappy/na_file/na_file_1001.py: writeData", "nappy/utils/text_parser.py: readItemsFromLine"]}
{"id": "C113", "title": "A file object tells what is in the file", "statement": "The get methods of a file object that has read a well formed file tell the header lines, the names, units, missing values and scale factors of all variables and auxiliary variables, and the independent variables of the dictionary that was written; items of the object are its header values.", "quantifier": "all well formed dictionaries of every file format index", "why_tests_cant": "all contents of files", "anchors": ["nappy/na_file/na_file.py: getVariables", "nappy/na_file/na_file.py: getNumHeaderLines", "nappy/na_file/na_file.py: __getitem__"]}
{"id": "C114", "title": "Kinds of coordinates", "statement": "A coordinate counts as latitude, longitude, level or time exactly if its CF attributes, its values (for times) or cf_xarray say so.", "quantifier": "all coordinates, attributes and shapes", "why_tests_cant": "all combinations of attributes and kinds of values", "anchors": ["nappy/nc_interface/xarray_utils.py: is_latitude", "nappy/nc_interface/xarray_utils.py: is_longitude", "nappy/nc_interface/xarray_utils.py: is_level", "nappy/nc_interface/xarray_utils.py: is_time"]}
{"id": "C115", "title": "Axes of a variable", "statement": "The list of axes of a variable has its coordinate for each dimension in order, a counting one where it has none; an axis by index is the one of this list; the dimension names of several variables are all their dimensions, each once.", "quantifier": "all variables", "why_tests_cant": "all numbers of dimensions", "anchors": ["nappy/nc_interface/xarray_utils.py: getAxisList", "nappy/nc_interface/xarray_utils.py: get_coord_by_index", "nappy/nc_interface/xarray_utils.py: get_dim_names_for_variables"]}
{"id": "C116", "title": "Arrays are converted to lists", "statement": "arrayToList gives the values of an array as a list of lists, and listOfListsCreator gives nested empty lists of the given dimensions.", "quantifier": "all arrays and dimensions", "why_tests_cant": "all shapes", "anchors": ["nappy/utils/list_manipulator.py: arrayToList", "nappy/utils/list_manipulator.py: listOfListsCreator"]}
{"id": "C117", "title": "FFI 2010 is translated to 2110", "statement": "The translator from FFI 2010 to 2110 translates a well formed dictionary or file object of FFI 2010.", "quantifier": "all dictionaries and objects", "why_tests_cant": "all contents", "anchors": ["nappy/utils/ffi_translator.py: translate2010To2110"]}
{"id": "C118", "title": "Environment variables name the files of annotations and local attributes", "statement": "A file named by NAPPY_ANNOTATIONS or NAPPY_LOCAL_ATTRIBUTES is the one that is used, and the file of the configuration is used if the variable is not set or empty.", "quantifier": "all environments, files and sequences of calls", "why_tests_cant": "all histories of a process", "anchors": ["nappy/utils/parse_config.py: getAnnotationsConfigDict", "nappy/utils/parse_config.py: getLocalAttributesConfigDict"]}
{"id": "C119", "title": "Files of real numbers come back in every format", "statement": "A well formed dictionary of doubles and ints of any file format index comes back from the file that was written with the default options, header numbers exactly and data values rounded to ten digits; writing what was read gives the same file.", "quantifier": "all well formed dictionaries of the nine formats, all doubles", "why_tests_cant": "all contents, 2^64 numbers per place", "anchors": ["nappy/nappy_api.py: writeNAFile", "nappy/nappy_api.py: readNAFile", "nappy/na_file/na_file.py: NAFile"]}
{"id": "C120", "title": "Decimal numbers of few digits are kept", "statement": "A decimal numeral that needs at most ten digits denotes, after reading it and writing it with the default format, the same number (fifteen digits for numbers of the header), and so a dictionary of such numbers comes back with the same values.", "quantifier": "all numerals, all exponents", "why_tests_cant": "infinitely many numerals, 2^64 doubles", "anchors": ["nappy/utils/text_parser.py: readItemsFromLine", "nappy/na_file/na_file.py: NAFile", "nappy/nappy_api.py: writeNAFile"]}
{"id": "C121", "title": "Variables of doubles survive NetCDF to NASA Ames and back", "statement": "Variables of doubles that are converted to a NASA Ames file with the default options and read back as xarray variables have their axes and missing values unchanged, and their values rounded to ten digits.", "quantifier": "all variables of doubles, all axes", "why_tests_cant": "2^64 numbers per place, accumulated rounding of expanded axes", "anchors": ["nappy/nc_interface/xarray_to_na.py: XarrayToNA.convert", "nappy/nc_interface/na_to_xarray.py: NADictToXarrayObjects.convert", "nappy/na_file/na_file_2010.py: _normalizeIndVars"]}
{"id": "C122", "title": "Dates on later axes can be written", "statement": "A variable with datetimes on its second or a later axis that the conversion accepts can be written to a NASA Ames file.", "quantifier": "all variables with such an axis, all options", "why_tests_cant": "all shapes, formats and places of the axis", "anchors": ["nappy/nc_interface/na_content_collector.py: NAContentCollector._defineNAVars", "nappy/nc_interface/na_content_collector.py: NAContentCollector._appendAxisDefinition", "nappy/na_file/na_file_2010.py: NAFile2010.writeHeader", "nappy/na_file/na_file_2110.py: NAFile2110.writeData"]}
{"id": "C123", "title": "A converter announces the same names at all times", "statement": "The names that constructNAFileNames returns do not depend on what was done with the converter before (conversions, announcements, writing, exceptions), and without a size limit they are the names of the files that writeNAFiles writes.", "quantifier": "all converters of the four classes, all sequences of calls with all outcomes", "why_tests_cant": "all histories", "anchors": ["nappy/nc_interface/xarray_to_na.py: XarrayToNA.constructNAFileNames", "nappy/nc_interface/xarray_to_na.py: XarrayToNA.writeNAFiles", "nappy/nc_interface/nc_to_na.py: NCToNA", "nappy/nc_interface/xarray_objs_to_na_files.py: XarrayObjectsToNAFile"]}
{"id": "C124", "title": "A converter returns the same dictionaries at all times", "statement": "Every call of convert returns the same dictionaries, whatever was done in between.", "quantifier": "all converters, all sequences of calls", "why_tests_cant": "all histories", "anchors": ["nappy/nc_interface/xarray_to_na.py: XarrayToNA.convert", "nappy/nc_interface/xarray_to_na.py: XarrayToNA.writeNAFiles"]}
{"id": "C125", "title": "A converter can write again", "statement": "Calling writeNAFiles again with the same arguments writes the same files again.", "quantifier": "all converters, all arguments", "why_tests_cant": "all contents and histories", "anchors": ["nappy/nc_interface/xarray_to_na.py: XarrayToNA.writeNAFiles", "nappy/nc_interface/xarray_to_na.py: XarrayToNA._updateWithColumnHeaders"]}
{"id": "C126", "title": "Xarray objects and dictionaries are written through the API", "statement": "convertXarrayObjectsToNA and convertXarrayObjectsToCSV write the given variables to files, and writeNADictToNC writes the given dictionary to a NetCDF file.", "quantifier": "all arguments", "why_tests_cant": "all inputs", "anchors": ["nappy/nappy_api.py: convertXarrayObjectsToNA", "nappy/nappy_api.py: convertXarrayObjectsToCSV", "nappy/nappy_api.py: writeNADictToNC"]}
{"id": "C127", "title": "All variables of a data set are converted", "statement": "Every data variable of an xarray data set and every coordinate that is not called like a dimension is handed to the conversion, once, whatever the order of the set of names is.", "quantifier": "all data sets, all orders of the set", "why_tests_cant": "all combinations of dimensions, unspecified set order", "anchors": ["nappy/nc_interface/xarray_to_na.py: XarrayDatasetToNA"]}
{"id": "C128", "title": "Local attributes extend the mapping of global attributes", "statement": "Attributes in the section nc_attributes of the file of local attributes are added to the mapping from global attributes to header items, so that data sets with such attributes are converted to NASA Ames with the attribute in its place.", "quantifier": "all files of local attributes, all data sets and global attributes", "why_tests_cant": "all contents of the file of local attributes", "anchors": ["nappy/nc_interface/na_content_collector.py: NAContentCollector._defineNAGlobals", "nappy/utils/parse_config.py: makeLocalAttributesConfigDict"]}
{"id": "C129", "title": "File objects in with statements", "statement": "When a with statement over a file object is left, in whatever way its block ends, the object is closed, an exception of the block goes on to the caller, no later operation changes the file, and all text that the block has written is on the disk; if the block began with a write that succeeded, that is exactly the file of the write.", "quantifier": "all blocks of operations, caught or not, and exceptions at any place; all ways in which the buffer of the file is emptied", "why_tests_cant": "all blocks and all points at which the block raises; the disk depends on the buffer", "anchors": ["nappy/na_file/na_file.py: NAFile.__enter__", "nappy/na_file/na_file.py: NAFile.__exit__", "nappy/na_file/na_file.py: NAFile.close"]}
{"id": "C130", "title": "Comments survive the way to xarray and back", "statement": "When a NASA Ames dictionary is converted to variables and attributes and these are converted to NASA Ames again, the special comments and the normal comments are in the new dictionary again: the same lines in the same order, right after the lines that introduce them. Only the lines the converter itself makes (its separators) are left out, and the only lines after them are indented lines, lines that start with History:, and the converter's separators. The comments must be single lines that are not blank and that do not contain one of the four lines that separate special and normal comments.", "quantifier": "every NASA Ames dictionary, settings without global attributes of the caller, list of comments, requested FFI, variables", "why_tests_cant": "comments are arbitrary texts of any number; the test files have a few fixed ones, and the loss of a line with a separator in it never shows", "anchors": ["nappy/nc_interface/na_to_xarray.py: NADictToXarrayObjects._mapNACommentsToGlobalAttributes", "nappy/nc_interface/na_content_collector.py: NAContentCollector._defineNAGlobals", "nappy/nc_interface/na_content_collector.py: NAContentCollector._defineNAComments"]}
{"id": "C131", "title": "Dates and volume numbers in the header", "statement": "A converted dictionary has the present day as date of revision. Its first date is the date of the first value of the time axis when the first axis of the main variables is a time with known units, otherwise the attribute first_valid_date_of_data, and 999 999 999 when nothing is known. From NASA Ames to variables and back, the first date, the volume number and the number of volumes are as they were.", "quantifier": "every list of variables, global attributes, requested FFI, calendar; every NASA Ames dictionary for the way back", "why_tests_cant": "needs all combinations of kinds of axes, units and attributes; the tests look at the values only, and all their files are volume 1 of 1", "anchors": ["nappy/nc_interface/na_content_collector.py: NAContentCollector._defineGeneralHeader", "nappy/nc_interface/na_content_collector.py: NAContentCollector._defineNAGlobals", "nappy/nc_interface/na_to_xarray.py: NADictToXarrayObjects._mapNACommentsToGlobalAttributes"]}
{"id": "C132", "title": "Attributes of variables and values of scalar variables are in the comments", "statement": "In a conversion to NASA Ames, the special comments of each dictionary have, for every main variable with attributes, a line with its name followed without interruption by one line for each attribute that is a text or a number (technical numbers such as missing_value excepted), in the order of the attributes. The first dictionary has such lines, including the value, for every scalar variable of the input whose name is not the name of a dimension.", "quantifier": "every list of variables with any attributes, global attributes, requested FFI; texts that are one line", "why_tests_cant": "which lines appear depends on all variables before and on flags that are set once; the test files have one kind of attributes and no scalar beside special comments", "anchors": ["nappy/nc_interface/na_content_collector.py: NAContentCollector._defineNAComments", "nappy/nc_interface/xarray_to_na.py: XarrayDatasetToNA._convertSingletonVars"]}
{"id": "C133", "title": "Axes of the converted file", "statement": "When a NASA Ames file is converted to xarray objects, axis i of every variable is independent variable i (the values form an array with these dimensions): its long name is the text in the file and its units are the ones in that text ('Not known' if there are none); a name that contains longitude, latitude, level or time becomes that word, with the matching standard_name and axis letter, and other names only have runs of forbidden characters replaced; different independent variables stay different axes. A time axis whose units do not begin with 'UNIT since Y-M-D' gets the units given by the caller, else the first empty or recognised answer of the user, who is asked at most once.", "quantifier": "every dictionary of a NASA Ames file that is converted, settings, sequence of answers", "why_tests_cant": "names and units are free text, matched with a pattern; the question is interactive; the tests convert files with one known time axis", "anchors": ["nappy/nc_interface/na_to_xarray.py: NADictToXarrayObjects._convertNAIndVarToXarrayAxis", "nappy/nc_interface/na_to_xarray.py: time_units_pattn"]}
{"id": "C134", "title": "Global attributes made from the header", "statement": "When a NASA Ames file is converted, the global attributes are exactly the names of the caller and the ten names of the configuration. title, source, file_format_index, no_of_nasa_ames_header_lines, file_number_in_set, total_files_in_set and first_valid_date_of_data are MNAME, SNAME, FFI, NLHEAD, IVOL, NVOL and DATE; institution has ONAME and ORG; history starts with RDATE written as year, month and day of at least four, two and two digits.", "quantifier": "every dictionary that is converted, every list of attributes of the caller", "why_tests_cant": "needs all headers and all lists of attributes of the caller, with names in common; the tests do not look at the attributes", "anchors": ["nappy/nc_interface/na_to_xarray.py: NADictToXarrayObjects._mapNACommentsToGlobalAttributes"]}
{"id": "C135", "title": "Names and units of axes, to a NASA Ames file and back", "statement": "When NetCDF data are written to a NASA Ames file and the file is converted back, each axis has its units again, its long name is the name followed by the units in parentheses, and its name is the old one, or time, latitude, longitude or level when the old one has such a word in it. Converting once more changes nothing.", "quantifier": "every data set, axis, name, units; formats 1001, 2010, 3010, 4010", "why_tests_cant": "names and units are free text; three programs and a file are in between; the tests convert once and do not compare the axes", "anchors": ["nappy/nc_interface/xarray_utils.py: getBestName", "nappy/nc_interface/na_to_xarray.py: NADictToXarrayObjects._convertNAIndVarToXarrayAxis", "nappy/nc_interface/na_content_collector.py: NAContentCollector._defineNAVars", "nappy/nc_interface/na_content_collector.py: NAContentCollector._appendAxisDefinition"]}
{"id": "C136", "title": "Files of one conversion do not overwrite each other", "statement": "When a conversion writes several files (several groups of variables, each cut into volumes by the size limit or not), no name is used for two groups, each file has at the end the text that it has if its group is written alone, and no file with another name is changed.", "quantifier": "every list of dictionaries, file name, size limit, settings and files already there", "why_tests_cant": "needs several groups beside a size limit and unusual file names; the tests write one group and compare no contents", "anchors": ["nappy/nc_interface/xarray_to_na.py: XarrayToNA.writeNAFiles", "nappy/nc_interface/xarray_to_na.py: XarrayToNA.constructNAFileNames", "nappy/nc_interface/xarray_to_na.py: XarrayToNA._writeNAFileSubsetsWithinSizeLimit"]}
{"id": "C137", "title": "Order of the variables in a converted file", "statement": "In every NASA Ames file made from xarray variables, the variables that have a number from an earlier NASA Ames file come first, in the order of the numbers, and all others follow in the order in which they were given; this holds for the main and for the auxiliary variables. So the variables of a converted NASA Ames file (at most 1000), given back in any order, are written in the order of that file if one file is made of them and no variable has the name of an axis.", "quantifier": "all lists of xarray variables, global attributes and requested formats for which the conversion succeeds, all their files; all NASA Ames dictionaries and all orders of their variables", "why_tests_cant": "the order depends on the whole list of variables, on which of them is taken as the best one and on the numbers in their attributes; tests see a few lists in their natural order", "anchors": ["nappy/nc_interface/na_content_collector.py: _reorderVarsIfPreviouslyNA, _analyseVariables", "nappy/nc_interface/xarray_to_na.py: _reorderVars, convert", "nappy/nc_interface/na_to_xarray.py: _convertNAToXarrayVariable"]}
{"id": "C138", "title": "A date given by the user becomes the date of every file written from a NetCDF file", "statement": "If the items to override contain DATE with three integers, convertNCToNA writes every file with that date, whatever first_valid_date_of_data says in the NetCDF file; it does not fail because of the date that is there.", "quantifier": "all datasets, settings and dates", "why_tests_cant": "The tests override only ONAME, and the date matters only for files whose first axis is not a time and whose attribute is read as a numpy array.", "anchors": ["nappy/nc_interface/xarray_to_na.py: XarrayToNA.writeNAFiles (lines 273-305)", "nappy/nc_interface/na_content_collector.py: defineNAGlobals (lines 601-602), defineGeneralHeader (lines 786-792)"]}
{"id": "C139", "title": "The messages of a conversion name the variables that are written and count the files", "statement": "The list that writeNAFiles returns says for every file its name and the names of its variables, auxiliary variables and singleton variables, and its last message is the number of the files written.", "quantifier": "all lists of dictionaries, settings, size limits and disks", "why_tests_cant": "No test looks at the messages, and the number is right when there is one file.", "anchors": ["nappy/nc_interface/xarray_to_na.py: XarrayToNA.writeNAFiles (lines 262-365), XarrayToNA.convert (lines 96-128)", "nappy/nc_interface/na_content_collector.py: collectNAContent (lines 101-103)"]}
{"id": "C140", "title": "The user is warned when the first date of a file cannot be found", "statement": "Whenever a dictionary gets the date 999 999 999 because neither the time axis nor the global attributes give a date, the messages of the converter contain the warning that the file has to be edited.", "quantifier": "all variables, global attributes and requested formats", "why_tests_cant": "No test looks at the messages of a conversion.", "anchors": ["nappy/nc_interface/na_content_collector.py: _defineGeneralHeader (lines 751-792)", "nappy/nc_interface/xarray_to_na.py: XarrayToNA.convert (lines 96-128)"]}
{"id": "C141", "title": "A converter of a NASA Ames file that refused a request does not later return an incomplete result", "statement": "If convert of a NADictToXarrayObjects object returned, every further call returns the same. If it stopped with an exception, a further call on the same object stops too or returns everything that was asked for, and writeNCFile never writes a file with fewer variables than were asked for.", "quantifier": "all files, settings and sequences of calls of convert and writeNCFile on one object", "why_tests_cant": "Every test calls convert once, on a request that can be met.", "anchors": ["nappy/nc_interface/na_to_xarray.py: NADictToXarrayObjects.convert (lines 98-130), _convertXarrayVariables (217-244), _convertXarrayAuxVariables (294-319), _convertXarrayAxes (367-376)", "nappy/nc_interface/na_to_nc.py: NAToNC.writeNCFile (lines 88-112)"]}
{"id": "C142", "title": "The programs tell the shell whether they have done what was asked", "statement": "The programs nc2na, nc2csv and na2nc have exit status 0 exactly when they have written (or named) the files asked for, and their standard output names each of these files once.", "quantifier": "all command lines, files and configurations; installed programs and files that are run", "why_tests_cant": "The tests call the functions and do not run the programs.", "anchors": ["setup.py: entry_points (lines 66-72)", "nappy/script/nc2na.py: exitNicely (lines 50-54), nc2na (119-147)", "nappy/script/nc2csv.py: nc2csv (lines 118-148)", "nappy/script/na2nc.py: exitNicely (lines 42-46), parseArgs (97-106), na2nc (109-125)"]}
{"id": "C143", "title": "The comparison of two files tells what differs", "statement": "When compNAFiles compares two files, it prints for every compared section exactly the lines that differ, each with its number and both texts, and says that the headers (bodies) are identical exactly when they are the same; a file and its copy are called identical; different lengths are reported.", "quantifier": "for all pairs of files, all choices of sections, strict or clever numbers and all delimiters", "why_tests_cant": "The tests look only at the value that the function returns; a text is right or wrong for each of infinitely many pairs of files.", "anchors": ["nappy/utils/compare_na.py: compareSections", "nappy/utils/compare_na.py: compNAFiles"]}
{"id": "C144", "title": "The settings of nappy.ini take effect", "statement": "The settings in the section main of nappy.ini take effect: every item has the value that the file gives it (with blanks for the marks __space__, and n marks are n blanks as the default delimiter), the rule for comments is the one that is named, column headers are added exactly if add_column_headers says so, and without one of the settings the import fails with an error.", "quantifier": "for every configuration file with sections, options, remarks and values on several lines, every value and every list of overriders", "why_tests_cant": "The modules read the one distributed nappy.ini when they are imported; the tests never use another file, so a setting that has no effect is not noticed.", "anchors": ["nappy/utils/common_utils.py: getDefault, getDebug", "nappy/nc_interface/xarray_to_na.py: add_column_headers, comment_override_rule"]}
{"id": "C145", "title": "Times are exported as numbers", "statement": "The dates of every time coordinate (C114) with units in its encoding are exported as the numbers that these units and the calendar (standard if none is given) give them, and the intervals of its axis are the differences of these numbers; any other array keeps its numbers, with missing ones replaced by the missing value.", "quantifier": "for every array with any name, attributes, coordinates, values and encoding, every function from dates to numbers, and every missing value", "why_tests_cant": "The tests convert the few files of the test data, in which the time coordinate is called time and has units; other names, other calendars and missing units never occur.", "anchors": ["nappy/nc_interface/xarray_utils.py: datetimes_to_nums, get_interval, getArrayAsList"]}
{"id": "C146", "title": "Variables without dimensions keep their value", "statement": "The value of a variable without dimensions is exported as it is: a text as this text (whatever type of array it is stored in; bytes are read as UTF-8, and bytes that are not UTF-8 are refused), a number as the same number, a date as its text. Reading it from the data set and converting it again for the comments does not change it.", "quantifier": "for every value without dimensions, every sequence of bytes, every text of any characters, and every conversion", "why_tests_cant": "The test data has few variables without dimensions, none of them a date or a text of variable length; bytes beyond ASCII never occur.", "anchors": ["nappy/utils/common_utils.py: get_rank_zero_array_value", "nappy/nc_interface/nc_to_na.py: _readXarrayFile", "nappy/nc_interface/xarray_to_na.py: _convertSingletonVars"]}
{"id": "C147", "title": "Column headers name the columns", "statement": "With add_column_headers, the last line of the header of every converted file of FFI 1001, 1010 or 2110 without auxiliary variables has the names of the columns of the data section, in the order of the columns and separated by the delimiter of the file: first the independent variable, then the variables. NNCOML and NLHEAD count this line, and all lines after it are rows with one item for each name. Files of other formats get no such line.", "quantifier": "for every conversion of any set of variables, every overriding of header items that leaves names and comments alone, every delimiter and number format", "why_tests_cant": "The tests convert with column headers once and never look at the line; the delimiter of the line and its place before the data are not compared.", "anchors": ["nappy/nc_interface/xarray_to_na.py: _updateWithColumnHeaders", "nappy/nc_interface/xarray_to_na.py: writeNAFiles", "nappy/na_file/na_file.py: _writeNormalComments", "nappy/na_file/na_file_1001.py: writeData"]}
{"id": "C148", "title": "Questions do not change a file object", "statement": "Asking a file object (getNADict, item access, the get methods) has no effect: all later operations have the same results, the file has the same text and all later questions have the same answers as if the question had not been asked.", "quantifier": "for every object opened for reading or writing, and every sequence of questions, writes, closes and changes made from outside, in any order", "why_tests_cant": "The tests read objects once and write objects at once; no test asks an object between opening it for writing and write.", "anchors": ["nappy/na_file/na_core.py: getNADict", "nappy/na_file/na_core.py: __getitem__", "nappy/na_file/na_core.py: getVariable … getSpecialComments", "nappy/na_file/na_file.py: _parseDictionary", "nappy/na_file/na_file.py: write"]}
{"id": "C149", "title": "A file cut short is refused or read as its first marks", "statement": "For every file that can be read and every place where it is cut off (an interrupted copy), opening and reading the part either raises or gives the same header and the first marks of the same data: every dependent and auxiliary variable, the axis of the marks (and NX, DX per mark for FFI 2110, 2160, 2310) of the whole start with the values of the part, and no other attribute differs. A cut part never gives a value at a mark that the whole does not have at that mark.", "quantifier": "all file contents, all cuts, all nine FFIs, all numbers of ignored header lines", "why_tests_cant": "A test cuts a few files at a few places; here every file and every place between two lines, also with records over several lines and blank lines at the end.", "anchors": ["nappy/na_file/na_file.py:163-181,328-348", "nappy/na_file/na_file_1001.py:64-82", "nappy/na_file/na_file_2010.py:104-128", "nappy/na_file/na_file_2110.py:73-112", "nappy/na_file/na_file_2160.py:98-127", "nappy/na_file/na_file_2310.py:56-90", "nappy/utils/text_parser.py:61-97"]}
{"id": "C150", "title": "Further marks only add lines at the end of the file", "statement": "When a dictionary can be written and another one differs from it only by further marks (every variable, auxiliary variable, the axis of the marks and, for FFI 2110, 2160, 2310, NX and DX start with the values of the first), the text written for the longer one starts with the whole text written for the shorter one: the header is the same and no line of an earlier mark depends on a later mark. This also holds when writing the longer one raises at a later mark.", "quantifier": "all pairs of dictionaries related in this way, all nine FFIs, all delimiters, number formats and annotation options, with and without header, whatever was in the file before", "why_tests_cant": "The tests write fixed dictionaries and never compare the files of a longer and a shorter run of the same data.", "anchors": ["nappy/na_file/na_file.py: write", "nappy/na_file/na_file_1001.py: writeData", "nappy/na_file/na_file_1010.py: writeData", "nappy/na_file/na_file_1020.py: writeData", "nappy/na_file/na_file_2010.py: writeData", "nappy/na_file/na_file_2110.py: writeData", "nappy/na_file/na_file_2160.py: writeData", "nappy/na_file/na_file_2310.py: writeData"]}
{"id": "C151", "title": "The function convertNCToNA and the class NCToNA write the same files", "statement": "For the same NetCDF file and the same arguments, convertNCToNA and the method writeNAFiles of an NCToNA object (also after any calls of convert and constructNAFileNames) return the same names or raise the same exception and leave the same files on disk; constructNAFileNames returns what convertNCToNA returns with only_return_file_names.", "quantifier": "all NetCDF datasets, selections of variables, requested FFIs, overridden items, size limits, output names (given or not), delimiters and formats, all sequences of earlier questions to the object", "why_tests_cant": "The tests use the function or the class, never both on the same input, and always give a name.", "anchors": ["nappy/nappy_api.py: convertNCToNA", "nappy/nc_interface/nc_to_na.py: NCToNA", "nappy/nc_interface/xarray_to_na.py: constructNAFileNames", "nappy/nc_interface/xarray_to_na.py: writeNAFiles", "nappy/utils/common_utils.py: getFileNameWithNewExtension"]}
{"id": "C152", "title": "Header and data section depend on different items", "statement": "The header of a written file does not depend on the values: it is the same text (or the same exception) for two dictionaries that differ only in V, A, the points X (for FFI 2010, 3010, 4010 the header has the axes) and the points per mark NX of FFI 2110, 2160, 2310. The data section does not depend on anything but the values and their numbers (X, V, A, NV, NAUXV, NX, NVPM, NAUXC as far as the format has them): names, titles, dates, comments, missing values and scale factors can be changed without a change in any data line.", "quantifier": "all pairs of dictionaries that agree on the items named, all nine FFIs, delimiters, number formats and annotation options, also when a write raises", "why_tests_cant": "Tests write single dictionaries; which items influence which lines is a statement about pairs of runs.", "anchors": ["nappy/na_file/na_file.py: write", "nappy/na_file/na_file.py: writeHeader helpers", "nappy/na_file/na_file_1001.py", "nappy/na_file/na_file_1010.py", "nappy/na_file/na_file_1020.py", "nappy/na_file/na_file_2010.py", "nappy/na_file/na_file_2110.py", "nappy/na_file/na_file_2160.py", "nappy/na_file/na_file_2310.py"]}
{"id": "C153", "title": "The lines for author, organisation, source and mission can be anything", "statement": "Whatever stands in lines 2 to 5 of a file (empty lines, numbers, braces, quotes), the file is opened with the same outcome: the same exception, or the same class and the same header in which only ONAME, ORG, SNAME and MNAME differ, each being the text of its own line. When the stated header length covers these lines the data is read with the same outcome too: the whole dictionary is the same apart from the four texts.", "quantifier": "all file contents, all replacements of the four lines, all nine FFIs, all numbers of ignored header lines", "why_tests_cant": "Test files have ordinary names in these lines; that no later item depends on the texts is a statement about all pairs of files.", "anchors": ["nappy/na_file/na_file.py: _readCommonHeader", "nappy/na_file/na_file.py: readHeader and readData of the classes", "nappy/utils/text_parser.py: readItemFromLine", "nappy/nappy_api.py: openNAFile"]}
{"id": "C154", "title": "The lines of the normal comments can be anything", "statement": "In a file whose header ends before the file does, the normal comments are exactly the last NNCOML lines of the header, each read as the line without the blanks at its ends. Whatever else is put into these lines (numbers, empty lines, something that looks like data), and whatever stands behind the header, the file is opened as the same class with the same header, only NCOM differs. When the stated header length covers the header, the data is read with the same result too.", "quantifier": "all file contents, all replacements of the comment lines by the same number of lines, all nine FFIs, all numbers of ignored header lines", "why_tests_cant": "Test files have a few ordinary comments; that neither the header nor the data depends on what they say is a statement about all pairs of files.", "anchors": ["nappy/na_file/na_file.py: _readComments", "nappy/na_file/na_file.py: _readLines", "nappy/na_file/na_file.py: readHeader and readData of the classes", "nappy/utils/text_parser.py: readItemsFromUnknownLines", "nappy/nappy_api.py: openNAFile"]}
{"id": "C155", "title": "The lines of the special comments can be anything", "statement": "The special comments of a file that can be opened are exactly NSCOML consecutive lines of it, each read as the line without the blanks at its ends. Whatever else is put into these lines (a number, an empty line), the file is opened as the same class with the same header, only SCOM differs; the number of normal comments behind them is found all the same. When the stated header length covers these lines, the data is read with the same result too.", "quantifier": "all file contents that can be opened, all replacements of these lines by the same number of lines, all nine FFIs, all numbers of ignored header lines", "why_tests_cant": "Test files have a few ordinary comments; that neither the rest of the header nor the data depends on what they say is a statement about all pairs of files.", "anchors": ["nappy/na_file/na_file.py: _readComments", "nappy/na_file/na_file.py: _readLines", "nappy/na_file/na_file.py: readHeader and readData of the classes", "nappy/utils/text_parser.py: readItemsFromUnknownLines", "nappy/nappy_api.py: openNAFile"]}
{"id": "C156", "title": "The lines of the names of the variables can be anything", "statement": "The names of the dependent variables of a file that can be opened are exactly NV consecutive lines of it. Whatever else is put into these lines (a number, an empty line), the file is opened as the same class with the same header, only VNAME differs and has one name for every line, in order. When the stated header length covers these lines, the data is read with the same result too.", "quantifier": "all file contents that can be opened, all replacements of these lines by the same number of lines, all nine FFIs, all numbers of ignored header lines", "why_tests_cant": "Test files have ordinary names; that neither the rest of the header nor the data depends on what they say is a statement about all pairs of files.", "anchors": ["nappy/na_file/na_file.py: _readVariablesHeaderSection", "nappy/na_file/na_file.py: _readLines", "nappy/na_file/na_file.py: readHeader and readData of the classes", "nappy/utils/text_parser.py: readItemsFromLines", "nappy/nappy_api.py: openNAFile"]}
