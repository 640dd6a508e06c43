{
 "claims": [
  {
   "property": "C01",
   "status": "proved",
   "theorems": [
    "C01_right_strip"
   ],
   "note": "All lines; uniqueness of the removed group."
  },
  {
   "property": "C02",
   "status": "proved",
   "theorems": [
    "C02_fixed_count",
    "C02_fixed_count_complete"
   ],
   "note": "A blank line counts as one empty field (only relevant for n=1)."
  },
  {
   "property": "C03",
   "status": "proved",
   "theorems": [
    "C03_any_layout"
   ],
   "note": "Blank lines inside the record are also allowed; only the last line must not be blank."
  },
  {
   "property": "C04",
   "status": "partial",
   "theorems": [
    "C04_exact_count_refuted",
    "C04_exact_count_partial"
   ],
   "note": "False of the code (witness); proved: at least n, all fields of the lines used, exactly n when on one line."
  },
  {
   "property": "C05",
   "status": "partial",
   "theorems": [
    "C05_header_terminates_refuted",
    "C05_header_terminates_partial"
   ],
   "note": "False of the code: a truncated header makes the readline loop run for ever (small-step theorem); exact condition for termination proved."
  },
  {
   "property": "C06",
   "status": "proved",
   "theorems": [
    "C06_blank_lines",
    "C06_reading"
   ],
   "note": "Exact characterisation of the check, and of readData for every header, class and file: trailing blank lines change nothing, a blank line before a non-blank one is the error reported."
  },
  {
   "property": "C07",
   "status": "proved",
   "theorems": [
    "C07_header_length"
   ],
   "note": "All nine FFIs, any dictionary for which write succeeds; for FFI 2160 the ignored header lines precede the counted header."
  },
  {
   "property": "C08",
   "status": "partial",
   "theorems": [
    "C08_data_found_refuted",
    "C08_data_found_partial",
    "C08_data_found_no_cr",
    "C08_lines_2160"
   ],
   "note": "False for text with a lone carriage return (witness); proved: the offset is NLHEAD plus the number of lone carriage returns of the header, hence exact when the dictionary has none. FFI 2160 with ignored header lines: behind these lines."
  },
  {
   "property": "C09",
   "status": "proved",
   "theorems": [
    "C09_roundtrip_1001"
   ],
   "note": "Any sizes, any white-space delimiter, any float format that prints one token; the well-formedness condition is in Spec/Records.v. Comments may have white space at the ends, which is lost (norm_common)."
  },
  {
   "property": "C10",
   "status": "proved",
   "theorems": [
    "C10_roundtrip_1010"
   ],
   "note": "Any sizes, any white-space delimiter, any float format that prints one token; the well-formedness condition is in Spec/Records.v. Comments may have white space at the ends, which is lost (norm_common)."
  },
  {
   "property": "C100",
   "status": "partial",
   "theorems": [
    "C100_rewrites_partial",
    "C100_refuted",
    "C100_quotes_refuted"
   ],
   "note": "False of the code: a file with an empty author line is read but cannot be written (stripQuotes fails), quotes around a title get lost (witnesses). Proved for every text that is read, in all nine formats, without the oddities listed in tidy; with the ignored lines for 2160. Missing: what exactly happens to the other files."
  },
  {
   "property": "C101",
   "status": "partial",
   "theorems": [
    "C101_everything_refuted",
    "C101_rest_refuted",
    "C101_told_partial",
    "C101_program_partial"
   ],
   "note": "False of the code: files that only the second directory has and lines after the end of the shorter file are not reported, and a file that is a directory in the second one ends the run (witnesses). Proved for all trees: what is reported is so, everything about the entries of the first directory is reported unless such a clash ends the run, and exactly a clash ends it."
  },
  {
   "property": "C102",
   "status": "proved",
   "theorems": [
    "C102_same",
    "C102_all"
   ],
   "note": "For all directory trees without links."
  },
  {
   "property": "C103",
   "status": "proved",
   "theorems": [
    "C103_options",
    "C103_items"
   ],
   "note": "For all sequences of options in either spelling. An unknown option raises the error of getopt."
  },
  {
   "property": "C104",
   "status": "partial",
   "theorems": [
    "C104_never_refuted",
    "C104_files_refuted",
    "C104_directories_partial"
   ],
   "note": "False of the code: main and, with files, compareNA call apply, which Python 3 does not have, so nothing is ever compared (proved for all command lines). Proved: compareNA with directories does what compare.py does."
  },
  {
   "property": "C105",
   "status": "partial",
   "theorems": [
    "C105_written_2160",
    "C105_kept_partial",
    "C105_not_written",
    "C105_refuted"
   ],
   "note": "False of the code: only FFI 2160 writes the lines; for the other formats the file does not depend on them (for all dictionaries, and a witness read from a file). Proved for 2160: the lines are written first whatever the dictionary is, and a tidy file keeps them."
  },
  {
   "property": "C106",
   "status": "partial",
   "theorems": [
    "C106_partial",
    "C106_refuted",
    "C106_exact_partial"
   ],
   "note": "False of the code: with three latitudes and two levels the file is written and cannot be read (witness; the reader takes the lengths of the axes in reverse order). Proved for one bounded axis, and for two or three bounded axes whose numbers of listed values are the same backwards, with any variables, auxiliary variables and values; the expanded axes are those of the variable. For two or three bounded axes the condition is necessary: no file at all is read to a dictionary with other counts. Titles must be there and have one line."
  },
  {
   "property": "C107",
   "status": "partial",
   "theorems": [
    "C107_partial",
    "C107_refuted"
   ],
   "note": "False of the code for the variables of C106_refuted (witness). Proved for the variables of C106, when the values of the bounded axes are printed in full and their steps add up to them again, and a factor 1 changes no number: as many variables and auxiliary variables, with all axes, values and missing values."
  },
  {
   "property": "C108",
   "status": "partial",
   "theorems": [
    "C108_2110_partial",
    "C108_2310_partial",
    "C108_refuted"
   ],
   "note": "False of the code: the values of two variables in a file of FFI 2310 are mixed (witness). Proved for FFI 2110 with any number of variables, and for FFI 2310 with one: names, lengths, first axis, values and auxiliary variables come back. Of the second axis FFI 2310 keeps the first value, and the step in DX without decimals; the first three auxiliary variables have its length, first value and step in full, from which its values can be counted if they are evenly spaced. Missing: header texts as in C78; the length of the second axis must be printed in full."
  },
  {
   "property": "C109",
   "status": "partial",
   "theorems": [
    "C109_partial",
    "C109_refuted"
   ],
   "note": "False of the code: the names have the name of the first axis (witness with three times and two heights; C109_partial for every conversion)."
  },
  {
   "property": "C11",
   "status": "proved",
   "theorems": [
    "C11_roundtrip_1020"
   ],
   "note": "Any sizes, any white-space delimiter, any float format that prints one token; the well-formedness condition is in Spec/Records.v. Comments may have white space at the ends, which is lost (norm_common)."
  },
  {
   "property": "C110",
   "status": "partial",
   "theorems": [
    "C110_partial",
    "C110_floats_partial",
    "C110_request",
    "C110_refuted"
   ],
   "note": "False of the code with floating point numbers: 0, 0.1, 0.2, 0.3 is refused and an axis with unequal differences is accepted (witness). Proved: the request is decided by isUniformlySpaced of the second axis (C110_request, one variable); with exact numbers the test is passed exactly by evenly spaced values (C110_partial); floating point values that are multiples of one power of two, each below 2^52 multiples, pass when evenly spaced (C110_floats_partial). Missing: no exact description of the decimal fractions that pass."
  },
  {
   "property": "C111",
   "status": "proved",
   "theorems": [
    "C111_str_reads_back",
    "C111_ints_read",
    "C111_reading_gives_floats",
    "C111_floats_fulfil_the_laws",
    "C111_file_1001"
   ],
   "note": "For all numbers of the format: the shortest digits read back (Proofs/FloatDec, FloatText), ints are read as the correctly rounded float. The laws of the round trip theorems (C09 to C16 and those built on them) hold of real floats with the default options, instance for FFI 1001. That b_repr, fmt_g and b_parse are Python's str(), % and float() is part of the model (checked examples in Spec/Binary64.v)."
  },
  {
   "property": "C112",
   "status": "partial",
   "theorems": [
    "C112_digits_partial",
    "C112_seventeen_digits",
    "C112_settles_partial",
    "C112_same_text",
    "C112_same_file_1001",
    "C112_largest_refuted"
   ],
   "note": "False next to the largest float: 1.7976931348623157e308 is written as 1.797693135e+308, which is read as an infinity (witness). Proved for all others: the text has p digits within half a unit of the value, reading gives the nearest float, and ten digits settle after one pass; so the laws of the theorems on writing again (C17) hold of all floats that do not become infinite."
  },
  {
   "property": "C113",
   "status": "proved",
   "theorems": [
    "C113_getters",
    "C113_items"
   ],
   "note": "For the nine formats of the round trip theorems and the same well formed dictionaries; names are split into name and units as the code does (relation splits)."
  },
  {
   "property": "C114",
   "status": "partial",
   "theorems": [
    "C114_latitude_longitude",
    "C114_level_refuted",
    "C114_level_partial",
    "C114_time_refuted",
    "C114_time_partial"
   ],
   "note": "False of the code: any value of the attribute positive makes a level, and the test for times raises IndexError for an empty coordinate (witnesses). Proved: latitudes and longitudes exactly; all levels are found; times exactly for coordinates without empty dimensions. What cf_xarray says is an argument of the model."
  },
  {
   "property": "C115",
   "status": "proved",
   "theorems": [
    "C115_axes",
    "C115_dimension_names"
   ],
   "note": "Names of dimensions of one variable are different."
  },
  {
   "property": "C116",
   "status": "partial",
   "theorems": [
    "C116_array_to_list_partial",
    "C116_prepared_partial",
    "C116_lists_partial",
    "C116_refuted"
   ],
   "note": "False of the code: a matrix is not converted (IndexError; AttributeError if the lists have been made) and lists of lists are not created (NameError; witness). Proved: the exact outcome for every array and every list of dimensions; only arrays of one dimension and those with an empty first dimension are converted."
  },
  {
   "property": "C117",
   "status": "partial",
   "theorems": [
    "C117_never_partial",
    "C117_refuted"
   ],
   "note": "False of the code: nothing is ever translated (proved for all dictionaries and objects; witness with a well formed dictionary of FFI 2010)."
  },
  {
   "property": "C118",
   "status": "partial",
   "theorems": [
    "C118_annotations_partial",
    "C118_attributes_partial",
    "C118_refuted"
   ],
   "note": "False of the code: a file named after the first successful call is not read (witness). Proved for all histories: calls that fail leave nothing behind, the first successful call returns what the named file says, and all later calls return the same."
  },
  {
   "property": "C119",
   "status": "partial",
   "theorems": [
    "C119_files_partial",
    "C119_same_files_partial",
    "C119_exact_partial",
    "C119_refuted"
   ],
   "note": "False of the code for 3010 and 4010 dictionaries with counts NXDEF that are not the same in reverse order: exactly these do not come back (proved; witness). Proved for all nine formats otherwise. Missing: 2310 with several variables (false, see C16); for writing again numbers next to the largest double (false, see C112) and whole numbers in the header (false, see C17)."
  },
  {
   "property": "C12",
   "status": "proved",
   "theorems": [
    "C12_roundtrip_2010"
   ],
   "note": "Any sizes, any white-space delimiter, any float format that prints one token; the well-formedness condition is in Spec/Records.v. Comments may have white space at the ends, which is lost (norm_common)."
  },
  {
   "property": "C120",
   "status": "partial",
   "theorems": [
    "C120_data_partial",
    "C120_header_partial",
    "C120_files_partial",
    "C120_refuted"
   ],
   "note": "False below the range of full precision: 1e-320 is written as 9.999888672e-321 (witness). Proved for zero and all numbers of absolute value at least 1e-300 that do not become infinite: same number, same double again; files of one independent variable (FFI 1001, 1010, 1020) come back with the same values."
  },
  {
   "property": "C121",
   "status": "partial",
   "theorems": [
    "C121_columns",
    "C121_grids_partial",
    "C121_refuted"
   ],
   "note": "False of the code for arbitrary axes: 1, 1e-20, -1, -2 comes back as 1, 0, -1, -2 (witness). Proved for all variables of one dimension (their axis has ten digits), and for grids whose bounded axes are multiples of a power of two that can be written with ten digits (whole numbers, quarters of degrees); 3010 and 4010 with counts that are the same backwards (see C106). Values and axis values of at most ten digits come back unchanged."
  },
  {
   "property": "C122",
   "status": "partial",
   "theorems": [
    "C122_bounded_partial",
    "C122_profiles_partial",
    "C122_refuted"
   ],
   "note": "False of the code: the datetimes are put into the dictionary as they are and writing them raises TypeError (witness). Proved for all conversions and options: a dictionary of FFI 2010, 3010 or 4010 with datetimes on a later axis is never written with its header, and one of FFI 2110 or 2310 with datetimes on either axis is never written at all."
  },
  {
   "property": "C123",
   "status": "proved",
   "theorems": [
    "C123_names",
    "C123_files",
    "C123_default"
   ],
   "note": "All classes of converters and all histories, with exceptions; the files for calls without a size limit (with one see C73)."
  },
  {
   "property": "C124",
   "status": "partial",
   "theorems": [
    "C124_quiet_partial",
    "C124_kept_partial",
    "C124_refuted"
   ],
   "note": "False of the code: writing changes the list that convert returns (witness: one more comment line). Proved for all histories: without writing the result is the same, and whatever was written, all items other than given header items, comments, and DX, NX, XNAME are the same."
  },
  {
   "property": "C125",
   "status": "partial",
   "theorems": [
    "C125_again_partial",
    "C125_headers_partial",
    "C125_refuted"
   ],
   "note": "False of the code: the second file has one more line of column headers (witness), and the writers turn DX and XNAME round (C19). Proved for every history: without column headers, with given comments that replace the old ones or none, and lists that are the same in reverse, the second call writes the same files under the same names; with column headers n calls leave n lines of them."
  },
  {
   "property": "C126",
   "status": "partial",
   "theorems": [
    "C126_never_partial",
    "C126_modules_partial",
    "C126_refuted"
   ],
   "note": "False of the code: a module and a class are misnamed, so all three functions raise for all arguments and write nothing (proved); witness with arguments for which the class that was meant writes the file."
  },
  {
   "property": "C127",
   "status": "partial",
   "theorems": [
    "C127_chosen_partial",
    "C127_refuted"
   ],
   "note": "False of the code: a coordinate with dimensions that no single data variable has is left out (witness). Proved for all data sets and orders: all data variables in order, then exactly the other coordinates that are not called like a dimension, no name twice."
  },
  {
   "property": "C128",
   "status": "partial",
   "theorems": [
    "C128_mapped_partial",
    "C128_other_partial",
    "C128_refuted"
   ],
   "note": "False of the code: the name that is used in the loop has no value yet, so a name that is not in the mapping makes every conversion that would give dictionaries raise UnboundLocalError (proved for all data sets; witness). Names that are in the mapping change nothing, whatever their values (proved)."
  },
  {
   "property": "C129",
   "status": "proved",
   "theorems": [
    "C129_closed",
    "C129_disk",
    "C129_written"
   ],
   "note": "The block is a list of operations on the object, each in a try statement or not, and of other statements that raise."
  },
  {
   "property": "C13",
   "status": "partial",
   "theorems": [
    "C13_roundtrip_3010_refuted",
    "C13_roundtrip_3010_4010_partial",
    "C13_lengths",
    "C13_exact_partial"
   ],
   "note": "False of the code (witness: NXDEF 1 and 2 cannot be read). Proved: a well formed dictionary comes back exactly if the counts NXDEF are the same in reverse order."
  },
  {
   "property": "C130",
   "status": "partial",
   "theorems": [
    "C130_partial",
    "C130_refuted"
   ],
   "note": "False of the code for other comments (C130_refuted): a special comment that mentions the line that ends the special comments is lost and the special comments after it become normal ones; blank comments are lost. C130_partial is the statement for all plain comments. C130_grows (an example) shows that the lines on attributes and history are added again each time."
  },
  {
   "property": "C131",
   "status": "partial",
   "theorems": [
    "C131_header",
    "C131_back_partial",
    "C131_file_partial",
    "C131_refuted"
   ],
   "note": "C131_header is the statement on the header of all converted dictionaries, which includes that they are volume 1 of 1. So volume numbers do not survive (C131_refuted, volume 2 of 3). C131_back_partial: the first date survives when the first axis is not a time. The calendar (cftime.num2date) is a parameter."
  },
  {
   "property": "C132",
   "status": "partial",
   "theorems": [
    "C132_attributes",
    "C132_scalars_partial",
    "C132_values",
    "C132_refuted"
   ],
   "note": "C132_attributes is proved for all inputs. Scalars: false of the code when the attribute comment gives special comments, and when no attribute of a main variable is told (C132_refuted): then nothing is written about scalars. C132_scalars_partial and C132_values prove it in the other cases."
  },
  {
   "property": "C133",
   "status": "partial",
   "theorems": [
    "C133_pattern",
    "C133_axes_partial",
    "C133_shape",
    "C133_refuted"
   ],
   "note": "Missing, because false (C133_refuted): two independent variables whose names contain one of the four words become axes of one name, and the long name of a time axis whose units are not recognised is replaced. Letters of the unit are ASCII."
  },
  {
   "property": "C134",
   "status": "proved",
   "theorems": [
    "C134_attributes"
   ],
   "note": "ONAME and ORG are texts; year, month and day are not negative. The attribute comment is the subject of C130."
  },
  {
   "property": "C135",
   "status": "partial",
   "theorems": [
    "C135_partial",
    "C135_grid_partial",
    "C135_second",
    "C135_refuted"
   ],
   "note": "Names and units come back (1001, 2010, 3010, 4010; short names without forbidden signs, units without parentheses, times with units since a date). False for converting again: the long name gets one more blank before the units every time (C135_second, C135_refuted)."
  },
  {
   "property": "C136",
   "status": "partial",
   "theorems": [
    "C136_partial",
    "C136_refuted"
   ],
   "note": "False of the code with a size limit and a file name with one character or none after the last dot: the last three characters are cut off, so that the volumes of all groups have the same names (witness). Proved for all other names, and for all names without size limit."
  },
  {
   "property": "C137",
   "status": "proved",
   "theorems": [
    "C137_order",
    "C137_back"
   ],
   "note": "C137_order without conditions: numbered variables first, by number (as places in a list of 1000, negative numbers count from the end), the others in the order given. C137_back: the variables of a converted file in any order; main variables come out as in the file, and so do the auxiliary ones, or all have become main variables (format 1010, where both have one shape)."
  },
  {
   "property": "C138",
   "status": "partial",
   "theorems": [
    "C138_same",
    "C138_date_partial",
    "C138_time_partial",
    "C138_array_partial",
    "C138_refuted"
   ],
   "note": "Refuted: a dictionary whose date is a numpy array cannot be compared with the new date, and ValueError is raised before anything is written (C138_refuted, and C138_array_partial for every such dataset); not so where the first axis is a time (C138_time_partial). When writing succeeds every dictionary has the date that was given (C138_date_partial), and where no date clashes with an array the conversion is the one of the other properties (C138_same)."
  },
  {
   "property": "C139",
   "status": "partial",
   "theorems": [
    "C139_same",
    "C139_messages_partial",
    "C139_text_partial",
    "C139_refuted"
   ],
   "note": "Refuted (C139_refuted): the counter grows by the length of the whole list of files in every round, so that k files are counted as k(k+1)/2 (C139_messages_partial), and the names of auxiliary variables are replaced by those of singletons. Proved: one group of messages per dictionary in order, with the name of the file and the variables; each name is in the text (C139_text_partial, auxiliary ones without singletons); the files are those of the other properties (C139_same)."
  },
  {
   "property": "C14",
   "status": "proved",
   "theorems": [
    "C14_roundtrip_2110"
   ],
   "note": "Any sizes, any white-space delimiter, any float format that prints one token; the well-formedness condition is in Spec/Records.v. Comments may have white space at the ends, which is lost (norm_common)."
  },
  {
   "property": "C140",
   "status": "partial",
   "theorems": [
    "C140_later_partial",
    "C140_refuted"
   ],
   "note": "Refuted: the messages of the first collector are dropped, so that there is no warning for the first file (C140_refuted). C140_later_partial: a warning is there exactly when a later file has no date, and a file without date has 999 999 999."
  },
  {
   "property": "C141",
   "status": "partial",
   "theorems": [
    "C141_first",
    "C141_kept_partial",
    "C141_early_partial",
    "C141_unknown",
    "C141_axes",
    "C141_refuted"
   ],
   "note": "Refuted (C141_refuted): the lists of axes and variables are attributes of the object before they are filled, and a second call takes them as they are. C141_unknown: for every list of names with an unknown one the second call returns what asking for the names before it returns. C141_axes: an axis that cannot be made ends in a result without variables at the third call. Proved: after a call that returned all calls return the same (C141_kept_partial); an exception before the axes leaves the object as it was (C141_early_partial); the first call is the conversion of the other properties (C141_first)."
  },
  {
   "property": "C142",
   "status": "partial",
   "theorems": [
    "C142_installed",
    "C142_file_partial",
    "C142_readable",
    "C142_output_partial",
    "C142_na2nc_output_partial",
    "C142_refuted"
   ],
   "note": "Refuted (C142_refuted): an installed program passes the list of names that it returns to sys.exit, so that its status is 1 after success, and a refused command line gives status 0; C142_installed says this for every run. Run as a file, the status is 1 exactly after an exception (C142_file_partial). Proved for the output: it is a heading and one line per file, which is on the disk and no other is changed (C142_output_partial, C142_na2nc_output_partial), and names without line breaks can be read back from it (C142_readable)."
  },
  {
   "property": "C143",
   "status": "partial",
   "theorems": [
    "C143_result",
    "C143_lines",
    "C143_identical_partial",
    "C143_sound_partial",
    "C143_same",
    "C143_refuted"
   ],
   "note": "Refuted (C143_refuted): a file is called identical with a longer one that begins with the same lines, and True is returned. Proved: the printed lines are exactly those at common positions that differ (C143_lines); IDENTICAL is printed exactly when the common lines agree, and a difference in length is told in a text of its own (C143_identical_partial), so that a reader of the whole output is not misled (C143_sound_partial); a file and its copy (C143_same); the value returned is that of C44 to C47 (C143_result). Lines are stated without approximate comparison."
  },
  {
   "property": "C144",
   "status": "partial",
   "theorems": [
    "C144_default",
    "C144_settings_partial",
    "C144_delimiter",
    "C144_missing",
    "C144_refuted"
   ],
   "note": "Refuted for add_column_headers: bool of the text False is True, so the column headers are added for every value except an empty one (C144_refuted, C144_settings_partial). Items and values: C144_default; delimiter, format, rule: C144_settings_partial and C144_delimiter; missing items: C144_missing. Not modelled: eval of other texts than True and False for DEBUG."
  },
  {
   "property": "C145",
   "status": "partial",
   "theorems": [
    "C145_numbers_partial",
    "C145_conditions_partial",
    "C145_other",
    "C145_axis",
    "C145_refuted"
   ],
   "note": "Refuted for a time coordinate that is not called time: datetimes_to_nums asks for da.time and raises AttributeError (C145_refuted). C145_conditions_partial has all the conditions under which there is a list of numbers. C145_axis connects the function with the axes of Model.Xarray. Not modelled: arrays of type datetime64 (known as times, their numbers are not computed); cftime.date2num is a parameter."
  },
  {
   "property": "C146",
   "status": "partial",
   "theorems": [
    "C146_bytes",
    "C146_only_bytes",
    "C146_value_partial",
    "C146_object_partial",
    "C146_again",
    "C146_exported_partial",
    "C146_refuted"
   ],
   "note": "Refuted: float() of an object array raises TypeError for a date and ValueError for a text of variable length, so the file is not converted; the text 007 becomes the number 7; whole numbers beyond 2^53 change (C146_refuted). All other types: C146_value_partial, with UTF-8 in both directions (C146_bytes, C146_only_bytes); C146_exported_partial: the value is an attribute of a variable of the first dictionary."
  },
  {
   "property": "C147",
   "status": "partial",
   "theorems": [
    "C147_line",
    "C147_table",
    "C147_csv_partial",
    "C147_converted",
    "C147_others",
    "C147_refuted"
   ],
   "note": "Refuted: _updateWithColumnHeaders ignores its delimiter, so with the default delimiter the names have commas between them (C147_refuted). C147_converted: every converted dictionary of FFI 1001 gets the line as one more comment, with the best names of the axis and of all its variables; C147_table: in the file it is the last line of a header that counts its lines, and the rows have the values of the columns in the order of the names; C147_csv_partial: with the delimiter comma it is the first line of a table of equal rows; C147_others: no converted dictionary of another FFI gets a line; FFI 1010 is never made and FFI 2110 always has an auxiliary variable."
  },
  {
   "property": "C148",
   "status": "partial",
   "theorems": [
    "C148_unchanged_partial",
    "C148_settled",
    "C148_written_partial",
    "C148_refuted"
   ],
   "note": "Refuted: getNADict on an object opened for writing replaces its dictionary by the empty attributes, so the next write raises and the file stays empty, while without the question it succeeds (C148_refuted). All other questions have no effect at any time, and getNADict has none on objects opened for reading and on objects after the first write, successful or not (C148_unchanged_partial, C148_settled, C148_written_partial)."
  },
  {
   "property": "C149",
   "status": "partial",
   "theorems": [
    "C149_data",
    "C149_file_partial",
    "C149_header",
    "C149_refuted"
   ],
   "note": "Refuted for cuts inside a line (the last number 25 is read as 2) and inside the header (a missing remark is read as an empty one and the file has no data), C149_refuted. C149_data: whatever the header (with NLHEAD >= 0) and the lines, when the part (whole lines) and the whole can be read the part has the first marks of the whole; C149_file_partial: the same for read_file when the cut leaves the header as it was; C149_header: it does when one line is left behind the lines the header reader takes."
  },
  {
   "property": "C15",
   "status": "proved",
   "theorems": [
    "C15_roundtrip_2160",
    "C15_lines_2160"
   ],
   "note": "Any sizes, any white-space delimiter, any float format that prints one token; the well-formedness condition is in Spec/Records.v. Comments may have white space at the ends, which is lost (norm_common). Also with any number of ignored header lines, which come back when as many lines are ignored."
  },
  {
   "property": "C150",
   "status": "proved",
   "theorems": [
    "C150"
   ],
   "note": "For every number type, option, class and pair of dictionaries related by first_marks (Spec/CutSpec.v, also used by C149). The shorter dictionary must be writable; the longer one need not be (C150_raises). Modelled from the header buffer on (write_body), the checks of write before it are not part of the statement."
  },
  {
   "property": "C151",
   "status": "partial",
   "theorems": [
    "C151_partial",
    "C151_refuted"
   ],
   "note": "Refuted when no output name is given and the file is called .nc (C151_refuted: the class announces a.na, the function a.nc.na, because getFileNameWithNewExtension does not remove the extension, see C38). C151_partial: the outcomes and the disk are the same when a name is given or the file is not called .nc, with and without size limit, after any questions. Not covered: the case of a numpy date attribute and a date of the user (date_clash, see Model/NumpyDate)."
  },
  {
   "property": "C152",
   "status": "proved",
   "theorems": [
    "C152_header",
    "C152_data",
    "C152_file"
   ],
   "note": "C152_header: outcome and text of writeHeader; C152_data: outcome and text without header; C152_file: two whole files that are written are header ++ data with the same data. The lists of items are in Spec/SectionSpec.v."
  },
  {
   "property": "C153",
   "status": "proved",
   "theorems": [
    "C153_open",
    "C153_read"
   ],
   "note": "C153_open: the header, all outcomes. C153_read: a file that is read is also read with other texts, when NLHEAD is at least the number of ignored lines + 5 (with a smaller stated header length these lines would be read as data). As the replacement is symmetric, this also gives that a file refused is refused with other texts. The text of a line is what readItemFromLine makes of it (blanks at the ends and a part in braces at the end removed)."
  },
  {
   "property": "C154",
   "status": "proved",
   "theorems": [
    "C154_open",
    "C154_read"
   ],
   "note": "The lines left when readHeader is done (rest) are part of the hypotheses and must not be empty: a header that runs into the end of the file reads empty lines as comments. C154_open: the header, also with other lines behind it. C154_read: the whole dictionary, when NLHEAD is at least the number of lines that were read as header."
  },
  {
   "property": "C155",
   "status": "proved",
   "theorems": [
    "C155_open",
    "C155_read"
   ],
   "note": "C155_open has no hypothesis but that the file can be opened (the line with NNCOML behind the special comments must be there). C155_read: the whole dictionary, when NLHEAD is at least the number of lines up to the last special comment (otherwise these lines would be data)."
  },
  {
   "property": "C156",
   "status": "proved",
   "theorems": [
    "C156_open",
    "C156_read"
   ],
   "note": "C156_open has no hypothesis but that the file can be opened. C156_read: the whole dictionary, when NLHEAD is at least the number of lines up to the last name. The name of a line is what readItemsFromLines makes of it (blanks at the ends and a part in braces at the end removed)."
  },
  {
   "property": "C16",
   "status": "partial",
   "theorems": [
    "C16_roundtrip_2310_refuted",
    "C16_roundtrip_2310_partial",
    "C16_several_partial",
    "C16_which_stay",
    "C16_nothing_lost"
   ],
   "note": "False of the code for two variables (witness: values interleaved). Proved for one variable; for any number of variables it is proved where exactly each value ends up, that the values stay in place exactly when there is one variable or no mark has more than one point, and that no value is lost."
  },
  {
   "property": "C17",
   "status": "partial",
   "theorems": [
    "C17_same_again_refuted",
    "C17_same_again_partial"
   ],
   "note": "False of the code for whole-number header items (written 1, read 1.0). Proved for all nine FFIs when the header numbers are floats, comments have no white space at the ends and the format is stable; for 2160 also with ignored header lines."
  },
  {
   "property": "C18",
   "status": "partial",
   "theorems": [
    "C18_dict_unchanged_refuted",
    "C18_dict_unchanged_partial",
    "C18_palindromic",
    "C18_two_writes"
   ],
   "note": "False for 2010, 2110, 2160, 2310 (witness); full for 1001, 1010, 1020 and any outcome; exact description of the change for the others; a second successful write undoes it (C18_two_writes)."
  },
  {
   "property": "C19",
   "status": "partial",
   "theorems": [
    "C19_write_twice_refuted",
    "C19_write_twice_partial",
    "C19_third_write"
   ],
   "note": "False for 2010 (witness); full for 1001, 1010, 1020; for the others when the items left reversed are palindromic; after two successful writes the third file is the first one again (C19_third_write)."
  },
  {
   "property": "C20",
   "status": "partial",
   "theorems": [
    "C20_no_header_refuted",
    "C20_no_header_partial"
   ],
   "note": "False for 3010 (witness); proved for all FFIs except 3010/4010 with non-palindromic NX."
  },
  {
   "property": "C21",
   "status": "partial",
   "theorems": [
    "C21_refuted",
    "C21_ignored_lines_refuted",
    "C21_every_dictionary_partial",
    "C21_nlhead_same",
    "C21_annotation_partial"
   ],
   "note": "False of the code: the annotator splits at vertical tabs and similar characters, and ignored lines of FFI 2160 are not annotated (witnesses). Proved for every dictionary: same outcome, same number of lines, same NLHEAD, the annotated file is the plain file with annotations inserted; line by line when no text contains a line break character and the one-line items have one line."
  },
  {
   "property": "C22",
   "status": "proved",
   "theorems": [
    "C22_rejected",
    "C22_csv_rejected"
   ],
   "note": "Any file content whose top line has no white space inside; any dictionary written with a delimiter without white space (without ignored header lines for FFI 2160)."
  },
  {
   "property": "C23",
   "status": "partial",
   "theorems": [
    "C23_refuted",
    "C23_twice_partial"
   ],
   "note": "False of the code for FFI 2010/3010/4010 (X[0]) and 2310 (DX), witnesses. Proved: full idempotence for 1001, 1010, 1020, 2110, 2160, and exactly what is doubled for the others."
  },
  {
   "property": "C24",
   "status": "proved",
   "theorems": [
    "C24_rectangular"
   ],
   "note": "Any header values, any lines."
  },
  {
   "property": "C25",
   "status": "proved",
   "theorems": [
    "C25_blocks",
    "C25_own_sizes"
   ],
   "note": "Any header values, any lines. For FFI 2310 the X entry of a mark has its first point only. The marks of FFI 2160 are words, those of 2110 numbers."
  },
  {
   "property": "C26",
   "status": "proved",
   "theorems": [
    "C26_terminates"
   ],
   "note": "Any object state, any lines; the loop is also given as a relation without a bound."
  },
  {
   "property": "C27",
   "status": "partial",
   "theorems": [
    "C27_refuted",
    "C27_records_partial"
   ],
   "note": "False of the code: surplus values of a wrapped record are dropped (witness). Proved: which words become which values; nothing is lost when each line has 1+NV words."
  },
  {
   "property": "C28",
   "status": "proved",
   "theorems": [
    "C28_once",
    "C28_read_only",
    "C28_after_close",
    "C28_at_most_one"
   ],
   "note": "Any object state, any sequence of write, close and edits."
  },
  {
   "property": "C29",
   "status": "partial",
   "theorems": [
    "C29_header_atomic_refuted",
    "C29_header_atomic_partial",
    "C29_lines_2160"
   ],
   "note": "False for 2160 with ignored header lines (witness): then exactly these lines are written when the header fails (proved); proved otherwise."
  },
  {
   "property": "C30",
   "status": "partial",
   "theorems": [
    "C30_refuted",
    "C30_appends_partial",
    "C30_retry_partial"
   ],
   "note": "False of the code: a write that failed in the data section leaves its text and the retry appends (witness). Proved: the retry appends exactly a single write's text; clean when the failures were in the header (not FFI 2160)."
  },
  {
   "property": "C31",
   "status": "proved",
   "theorems": [
    "C31_disk_is_prefix",
    "C31_complete_on_return"
   ],
   "note": "Writer modelled call by call (proved equal to the text model); any interleaving of buffer spills; any session of operations."
  },
  {
   "property": "C32",
   "status": "partial",
   "theorems": [
    "C32_choice_refuted",
    "C32_choice_partial"
   ],
   "note": "False of the code: a well-formed 2010 dictionary with one mark raises IndexError (witness). Proved: the result is one of the nine with leading digit NIV; NIV outside 1..4 is an error; a result exists for NIV 1, 3, 4 and for NIV 2 when X[0] has two elements."
  },
  {
   "property": "C33",
   "status": "partial",
   "theorems": [
    "C33_refind_refuted",
    "C33_refind_partial"
   ],
   "note": "False of the code for a 2010 dictionary with one mark (witness). Proved for every well-formed dictionary of each FFI under the stated size conditions, and for every readable file of FFI 1001, 1010, 1020, 3010, 4010."
  },
  {
   "property": "C34",
   "status": "proved",
   "theorems": [
    "C34_open",
    "C34_unsupported"
   ],
   "note": "Any file content and number of ignored lines."
  },
  {
   "property": "C35",
   "status": "proved",
   "theorems": [
    "C35_name_and_units",
    "C35_no_units",
    "C35_nothing_lost"
   ],
   "note": "Default pattern; all items."
  },
  {
   "property": "C36",
   "status": "proved",
   "theorems": [
    "C36_getters"
   ],
   "note": "Any file content for which the header reader succeeds, any callback."
  },
  {
   "property": "C37",
   "status": "partial",
   "theorems": [
    "C37_set_get_refuted",
    "C37_set_get_partial"
   ],
   "note": "False of the code: setNADict does not reach getNADict (witness). Proved: getNADict returns exactly the attributes that are not None; setNADict changes no attribute."
  },
  {
   "property": "C38",
   "status": "partial",
   "theorems": [
    "C38_extension_refuted",
    "C38_extension_refuted_always",
    "C38_extension_partial"
   ],
   "note": "False of the code: the extension is always appended, never replaced (exact result proved)."
  },
  {
   "property": "C39",
   "status": "proved",
   "theorems": [
    "C39_pairs",
    "C39_odd",
    "C39_all_strings"
   ],
   "note": "All strings."
  },
  {
   "property": "C40",
   "status": "proved",
   "theorems": [
    "C40_partition",
    "C40_read_back",
    "C40_name"
   ],
   "note": "Any number of rows and any limit >= 1, one output file name per dictionary."
  },
  {
   "property": "C41",
   "status": "partial",
   "theorems": [
    "C41_reported_refuted",
    "C41_zero_refuted",
    "C41_negative_refuted",
    "C41_positive_partial"
   ],
   "note": "False of the code: every name is listed twice, a limit of 0 divides by zero, a negative limit loops forever. Proved: for a limit >= 1 it terminates and every file name is listed exactly twice."
  },
  {
   "property": "C42",
   "status": "proved",
   "theorems": [
    "C42_distinct",
    "C42_keeps_parts",
    "C42_single",
    "C42_default"
   ],
   "note": "Any base name and number; without a name, the one of the NetCDF file with .na (C123_default: this is the name used)."
  },
  {
   "property": "C43",
   "status": "proved",
   "theorems": [
    "C43_modified_copy",
    "C43_any"
   ],
   "note": "X a list; any integers as bounds (negative ones count from the end), the other keys present or not."
  },
  {
   "property": "C44",
   "status": "proved",
   "theorems": [
    "C44_reflexive",
    "C44_symmetric",
    "C44_files_symmetric"
   ],
   "note": "All modes and delimiters; symmetry covers exceptions too. The arithmetic enters through stated laws (proved for exact rationals)."
  },
  {
   "property": "C45",
   "status": "partial",
   "theorems": [
    "C45_refuted",
    "C45_common_lines_partial"
   ],
   "note": "False of the code: sections of different length compare equal (witness). Proved: without approx_equal the verdict is equality exactly when the lines at all common positions agree."
  },
  {
   "property": "C46",
   "status": "partial",
   "theorems": [
    "C46_refuted",
    "C46_signs_partial"
   ],
   "note": "False of the code: 1 and 1000 are approximately equal (witness). Proved: approx_equal reports exactly the pairs of opposite sign."
  },
  {
   "property": "C47",
   "status": "partial",
   "theorems": [
    "C47_refuted",
    "C47_last_section_partial"
   ],
   "note": "False of the code: the verdict on the header is overwritten by the one on the body (witness). Proved: the verdict is the one of the last compared section."
  },
  {
   "property": "C48",
   "status": "proved",
   "theorems": [
    "C48_populate",
    "C48_too_few",
    "C48_write",
    "C48_onto"
   ],
   "note": "Any sizes and values: row-major elements, IndexError when values are missing, the writer emits the sequence again with the innermost dimension per line, and filling is a bijection onto nested lists of the sizes."
  },
  {
   "property": "C49",
   "status": "partial",
   "theorems": [
    "C49_subset_refuted",
    "C49_scalar_name_refuted",
    "C49_number_refuted",
    "C49_terminates",
    "C49_partial",
    "C49_none"
   ],
   "note": "False of the code: three ways to lose a variable (witnesses: its axis is every n-th value of another axis, its name is the best name of a scalar, two variables carry the same nasa_ames_var_number). Proved: the loop always terminates, and without these three situations every variable is in exactly one dictionary; no dictionary only when there is no such variable."
  },
  {
   "property": "C50",
   "status": "partial",
   "theorems": [
    "C50_refuted",
    "C50_partial",
    "C50_shape",
    "C50_coherent"
   ],
   "note": "False of the code: one agreeing value is enough (witness). Proved for all inputs: merged variables have axes of the same names, lengths and units with at least one common value; when axes of one name are one axis (one Dataset), all merged variables have the same axes."
  },
  {
   "property": "C51",
   "status": "partial",
   "theorems": [
    "C51_refuted",
    "C51_unrequested_refuted",
    "C51_partial",
    "C51_auxiliary"
   ],
   "note": "False of the code: the global attribute file_format_index replaces the FFI (witnesses with and without a request). Proved for all inputs without that attribute; auxiliary variables only stand beside variables of two or more axes, so FFI 1010 is never needed nor chosen."
  },
  {
   "property": "C52",
   "status": "partial",
   "theorems": [
    "C52_refuted",
    "C52_counts",
    "C52_partial"
   ],
   "note": "False of the code: a blank line inside an attribute becomes a blank comment (witness). Proved for all inputs: the counts agree and every comment is one line; no comment is blank when names have one line and attributes have no blank lines after the first."
  },
  {
   "property": "C53",
   "status": "partial",
   "theorems": [
    "C53_extend_refuted",
    "C53_start_only_refuted",
    "C53_merge_partial",
    "C53_insert_converted",
    "C53_override"
   ],
   "note": "False of the code: appended comments end up after the end line of converted normal comments, and a list that has only the start line raises IndexError. Proved for all other lists: existing comments keep their order between the outermost marker lines, and the counts are updated."
  },
  {
   "property": "C54",
   "status": "partial",
   "theorems": [
    "C54_refuted",
    "C54_partial",
    "C54_aux_partial"
   ],
   "note": "False of the code: the missing value is not scaled with the data, so missing cells stop being missing (witness with scale factor 0.1 in binary64). Proved for all files: every cell is the cell of the file times the scale factor, the fill value is the missing value of the file, and missing cells stay missing when scaling does not change the missing value."
  },
  {
   "property": "C55",
   "status": "partial",
   "theorems": [
    "C55_length_refuted",
    "C55_none_refuted",
    "C55_closed_form_refuted",
    "C55_expanded_partial",
    "C55_idempotent",
    "C55_exact"
   ],
   "note": "False of the code: a file can declare fewer values than it defines, an axis with no defined values cannot be expanded, and repeated addition differs from a*dx+first in binary64. Proved: when NXDEF = NX the axis is unchanged; otherwise, with at least one defined value and NX >= 1, it keeps its first value, has exactly NX values and each further one is the one before plus DX; running the expansion twice changes nothing; with exact arithmetic the closed form holds."
  },
  {
   "property": "C56",
   "status": "partial",
   "theorems": [
    "C56_refuted",
    "C56_partial",
    "C56_exact"
   ],
   "note": "False of the code: with floating point numbers the differences can be equal though adding them up gives other values (witness in binary64). Proved for every converted dictionary of FFI 2010, 3010 and 4010: normalisation gives back every axis on which adding the difference leads to the next value, which holds for all axes in exact arithmetic; axes that are not evenly spaced are stored in full. About the dictionaries before writing; the number format of the file can round the values."
  },
  {
   "property": "C57",
   "status": "partial",
   "theorems": [
    "C57_refuted",
    "C57_nested_partial"
   ],
   "note": "False of the code: expanding the axis of any 1020 file that was read raises an exception, because X is a flat list there. Proved for a nested X: NVPM values per group, spaced by DX."
  },
  {
   "property": "C58",
   "status": "proved",
   "theorems": [
    "C58_reported_lines"
   ],
   "note": "All file contents, names that are not excluded."
  },
  {
   "property": "C59",
   "status": "partial",
   "theorems": [
    "C59_digit_refuted",
    "C59_aux_refuted",
    "C59_partial",
    "C59_unknown_partial",
    "C59_aux_partial",
    "C59_none",
    "C59_numerals"
   ],
   "note": "False of the code: a first name that starts with a digit is taken for a number, and an unknown auxiliary name is ignored (witnesses). Proved for main variables: all, the given numbers, or the first variable of each given name are converted, in that order; an unknown name is refused. For auxiliary variables the same, with unknown names left out (C59_aux_partial). An empty list is refused with an IndexError (C59_none); numbers written as text stand for themselves (C59_numerals)."
  },
  {
   "property": "C60",
   "status": "partial",
   "theorems": [
    "C60_refuted",
    "C60_partial",
    "C60_last_partial"
   ],
   "note": "False of the code: variables with the same safe name overwrite each other (witness). Proved: exactly the last variable of each name is kept, and all are when the names differ."
  },
  {
   "property": "C61",
   "status": "partial",
   "theorems": [
    "C61_refuted",
    "C61_partial"
   ],
   "note": "False of the code: an attribute with one of the ten names that the conversion sets is overwritten (witness: title). Proved for all other names."
  },
  {
   "property": "C62",
   "status": "proved",
   "theorems": [
    "C62_safe_names"
   ],
   "note": "For every file, request and settings without renaming."
  },
  {
   "property": "C63",
   "status": "partial",
   "theorems": [
    "C63_refused",
    "C63_1020_refuted",
    "C63_plain",
    "C63_bounded"
   ],
   "note": "False of the code: no file of FFI 1020 can be converted, the normalisation of its axis always fails (proved for every 1020 file). Proved: 2110, 2160 and 2310 are always refused. With all variables selected and no question about time units, a readable file of FFI 1001 or 1010 is converted exactly when it has a data record, one of FFI 2010, 3010 or 4010 exactly when it has a data record, every bounded axis has at least one value and an axis announced as listed in full is."
  },
  {
   "property": "C64",
   "status": "partial",
   "theorems": [
    "C64_refuted",
    "C64_partial"
   ],
   "note": "False of the code: -99990 with scale factor 0.1 becomes the missing value -9999 (witness). Proved: with a scale factor that changes no number a cell is missing exactly when the one of the file is."
  },
  {
   "property": "C65",
   "status": "proved",
   "theorems": [
    "C65_ignored_lines"
   ],
   "note": "For every file (readable or not, any FFI) whose NLHEAD is not negative: both readings fail alike or give the same dictionary but for IGN and NLHEAD. The ignored lines are stored as stripped texts when they have no closing brace and no control character U+0001, and unchanged when they are names (clean, no annotation)."
  },
  {
   "property": "C66",
   "status": "proved",
   "theorems": [
    "C66_line_ends"
   ],
   "note": "For every content and number of ignored lines; including those that cannot be read."
  },
  {
   "property": "C67",
   "status": "partial",
   "theorems": [
    "C67_refuted",
    "C67_rows_partial"
   ],
   "note": "False of the code: with a tab as delimiter every data line ends with a tab (witness). Proved for delimiters of spaces and commas without annotation, for every dictionary, class and no_header, also when writing fails: same outcome, same dictionary, same rows."
  },
  {
   "property": "C68",
   "status": "partial",
   "theorems": [
    "C68_refuted",
    "C68_rows",
    "C68_written_partial"
   ],
   "note": "False of the code: a comment line of numbers and commas is reported as different (witness). Proved for all files of the same rows, and for the files written from one dictionary, whose items have no delimiter inside (texts of one item with a letter in them may have them) and are no nan; all options."
  },
  {
   "property": "C69",
   "status": "partial",
   "theorems": [
    "C69_refuted",
    "C69_rows_partial",
    "C69_same_rows_partial"
   ],
   "note": "False of the code: no_header is ignored (witness). Proved without annotation: the CSV file has the rows of the file that would be written, or the error is the same; a file that nappy wrote becomes the CSV file of its own rows."
  },
  {
   "property": "C70",
   "status": "partial",
   "theorems": [
    "C70_refuted",
    "C70_number",
    "C70_number_only",
    "C70_name_partial",
    "C70_unknown_partial"
   ],
   "note": "False of the code: a name that starts with a digit is taken for a number, another variable can be returned (witness). Proved for all numbers and for names that do not start with a digit."
  },
  {
   "property": "C71",
   "status": "partial",
   "theorems": [
    "C71_refuted",
    "C71_selected",
    "C71_succeeds"
   ],
   "note": "False of the code: an id that is not in the file is ignored without an error (witness). Proved for all files: exactly the selected variables are passed on, in the order of the file and with their contents; it succeeds when the attributes called bounds are texts."
  },
  {
   "property": "C72",
   "status": "partial",
   "theorems": [
    "C72_refuted",
    "C72_rows_partial"
   ],
   "note": "False of the code: when csv_file is given, it is ignored and a NASA Ames file with the default delimiter is written (witness). Proved without csv_file and annotation, delimiters of spaces and commas."
  },
  {
   "property": "C73",
   "status": "partial",
   "theorems": [
    "C73_refuted",
    "C73_names_partial"
   ],
   "note": "False of the code with a size limit: other files are written (witness). Proved without size limit for all files and arguments."
  },
  {
   "property": "C74",
   "status": "partial",
   "theorems": [
    "C74_refuted",
    "C74_kept_partial",
    "C74_succeeds_partial"
   ],
   "note": "False of the code: an empty text becomes an empty list, an integer of more than 32 bits is an error (witnesses). Proved: all other values and all names are kept; it fails only for integers beyond 32 bits."
  },
  {
   "property": "C75",
   "status": "proved",
   "theorems": [
    "C75_values",
    "C75_auxiliary"
   ],
   "note": "For all variables, requested formats and number types."
  },
  {
   "property": "C76",
   "status": "partial",
   "theorems": [
    "C76_nan_refuted",
    "C76_value_refuted",
    "C76_partial"
   ],
   "note": "False of the code: the fill value may itself be NaN, and the default missing value may occur as a value (witnesses). Proved when the missing value is not NaN and not among the values."
  },
  {
   "property": "C77",
   "status": "proved",
   "theorems": [
    "C77_axes"
   ],
   "note": "For all variables and requested formats, without a global attribute file_format_index. For 1020 only XNAME and DX are stated (X: see C57)."
  },
  {
   "property": "C78",
   "status": "partial",
   "theorems": [
    "C78_refuted",
    "C78_partial"
   ],
   "note": "False of the code: a title with two lines gives a file that cannot be read (witness). Proved for all variables, number types and formats whose header entries are texts of one line, with names that are single lines without an annotation in braces."
  },
  {
   "property": "C79",
   "status": "partial",
   "theorems": [
    "C79_refuted",
    "C79_partial"
   ],
   "note": "False of the code: the missing value is written in full in the header but with ten digits in the data, so with the default fill value of NetCDF (9.969209968386869e+36) missing cells are no longer missing (witness in binary64). Proved for missing values that do not change when printed."
  },
  {
   "property": "C80",
   "status": "proved",
   "theorems": [
    "C80_names"
   ],
   "note": "For all attributes and variables. An institution with the mark of ONAME that is not of the form written for NASA Ames files is left open."
  },
  {
   "property": "C81",
   "status": "proved",
   "theorems": [
    "C81_names"
   ],
   "note": "For all dictionaries and settings without global attributes of the caller, in memory or through the attributes of the NetCDF file."
  },
  {
   "property": "C82",
   "status": "proved",
   "theorems": [
    "C82_values"
   ],
   "note": "For all dictionaries, settings and requests, in memory."
  },
  {
   "property": "C83",
   "status": "partial",
   "theorems": [
    "C83_refuted",
    "C83_options_partial",
    "C83_needs_input",
    "C83_no_size_limit"
   ],
   "note": "False of the code: -l and --limit_ffi_1001_rows are documented but not accepted (witness), so that no command line sets a size limit (proved). Proved for all sequences of the other options in either spelling."
  },
  {
   "property": "C84",
   "status": "proved",
   "theorems": [
    "C84_order"
   ],
   "note": "For all permutations of options given once each."
  },
  {
   "property": "C85",
   "status": "partial",
   "theorems": [
    "C85_refuted",
    "C85_ignored_partial"
   ],
   "note": "False of the code: a word that is no option ends the options, it and all after it are ignored (witness). Proved: this is so for every such command line, and the options before it keep their meaning."
  },
  {
   "property": "C86",
   "status": "partial",
   "theorems": [
    "C86_installed_refuted",
    "C86_main_refuted",
    "C86_main_partial"
   ],
   "note": "False of the code: the program as installed does not add the delimiter, and a word after the options or a missing value hides it (witnesses). Proved for the program run as a file and all options of nc2na with an input file."
  },
  {
   "property": "C87",
   "status": "proved",
   "theorems": [
    "C87_options"
   ],
   "note": "For all sequences of options in either spelling."
  },
  {
   "property": "C88",
   "status": "proved",
   "theorems": [
    "C88_other_file"
   ],
   "note": "For all sequences of options without -o."
  },
  {
   "property": "C89",
   "status": "partial",
   "theorems": [
    "C89_refuted",
    "C89_partial",
    "C89_error_partial"
   ],
   "note": "False of the code: the mode is ignored, in append mode the variables of the file are lost (witness). Proved for all files, settings and modes: the file holds exactly what was converted, other files are unchanged, an error changes none. Errors of xarray while writing are not modelled."
  },
  {
   "property": "C90",
   "status": "proved",
   "theorems": [
    "C90_converts",
    "C90_no_change"
   ],
   "note": "For all sequences of options of na2nc in either spelling. Errors of xarray while writing are not modelled."
  },
  {
   "property": "C91",
   "status": "proved",
   "theorems": [
    "C91_reports",
    "C91_writes_nothing"
   ],
   "note": "For all sequences of options of nc2na in either spelling (the size limit cannot be set, see C83)."
  },
  {
   "property": "C92",
   "status": "partial",
   "theorems": [
    "C92_refuted",
    "C92_partial"
   ],
   "note": "False of the code: a variable with no values gives a file that cannot be converted (witness). Proved for all variables of one dimension under the conditions of C78, if multiplication by the scale factor 1 changes no number."
  },
  {
   "property": "C93",
   "status": "partial",
   "theorems": [
    "C93_refuted",
    "C93_partial",
    "C93_name_of_file"
   ],
   "note": "False of the code: capitals and blanks in names are changed, units with parentheses are lost (witness). Proved under the conditions of C78: units without parentheses come back, names come back if they are short, without capitals and signs that NetCDF does not allow."
  },
  {
   "property": "C94",
   "status": "proved",
   "theorems": [
    "C94_sections",
    "C94_section_twice",
    "C94_option_twice",
    "C94_no_section",
    "C94_no_sign"
   ],
   "note": "For all files of sections, options (any indentation of further lines, comments, empty lines between) and remarks, without a section DEFAULT; a file that gives a section twice, or an option of its last section, that has other lines before its first section or a line without = or : is refused; python's configparser is modelled line by line."
  },
  {
   "property": "C95",
   "status": "partial",
   "theorems": [
    "C95_refuted",
    "C95_shared_refuted",
    "C95_missing_refuted",
    "C95_partial"
   ],
   "note": "False of the code: the first file read is returned for all others, also if it did not exist, and a change of an item in the copy of one caller is seen by all later ones (witnesses). Proved for all histories without such changes: all calls after the first that succeeds return what that one returned."
  },
  {
   "property": "C96",
   "status": "partial",
   "theorems": [
    "C96_refuted",
    "C96_partial",
    "C96_program_partial"
   ],
   "note": "False of the code: with the distributed local attributes the organisation of the NetCDF file is replaced in every converted file (witness, from the command line to the file read back). Proved for all dictionaries, local attributes and command lines: the order of precedence, and that nothing else changes but comments; for a run of nc2na that succeeds, that the texts of its files are those of the dictionaries so overridden."
  },
  {
   "property": "C97",
   "status": "partial",
   "theorems": [
    "C97_refuted",
    "C97_partial"
   ],
   "note": "False of the code: a file without some item makes annotated writing fail (witness). Proved for all annotations files with a text on one line for every item; the distributed file is an instance."
  },
  {
   "property": "C98",
   "status": "partial",
   "theorems": [
    "C98_refuted",
    "C98_ncom_refuted",
    "C98_partial"
   ],
   "note": "False of the code: a text for SCOM is written one character a line (witness, from the command line to the file read back); a text for NCOM makes the run fail (witnesses). Proved for all dictionaries with a list of comments, texts and rules: exactly when the override fails, and otherwise that the comments are the characters of the text."
  },
  {
   "property": "C99",
   "status": "partial",
   "theorems": [
    "C99_refuted",
    "C99_settled_partial"
   ],
   "note": "False of the code for 2310 files with several variables, whose values are mixed anew each time (witness). Proved for every file format index, also with whole-number scale factors and white space around comments. Missing: 3010 and 4010 files whose axis lengths are not the same in both directions, 2310 files with several variables (C13, C16: these do not come back). 2160 dictionaries may have ignored lines."
  }
 ]
}