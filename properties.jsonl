{"id": "C01", "title": "Input format is decided by the ends of the text only", "statement": "NdmIo.from_string treats a text as KVN exactly when, ignoring surrounding white space, it begins with \"CCSDS_\"; otherwise as XML exactly when it begins with \"<\" and ends with \">\"; otherwise as JSON exactly when it begins with \"[\" and ends with \"]\"; every other text is rejected with ValueError. Adding or removing white space at either end never changes the decision.", "quantifier": "for every string", "why_tests_cant": "the input space is all strings; tests use a dozen files", "anchors": ["ccsds_ndm/ndm_io.py:NdmIo.from_string", "ccsds_ndm/ndm_io.py:_identify_data_format"]}
{"id": "C02", "title": "JSON is refused and never half-processed", "statement": "A JSON-looking text always raises NotImplementedError; to_string and to_file in JSON format always raise NotImplementedError and to_file leaves every file on disk as it was.", "quantifier": "for every text, object, path and file-system state", "why_tests_cant": "absence of any accepted input or side effect is a universal claim", "anchors": ["ccsds_ndm/ndm_io.py:NdmIo.from_string", "ccsds_ndm/ndm_io.py:NdmIo.to_string", "ccsds_ndm/ndm_io.py:NdmIo.to_file"]}
{"id": "C03", "title": "Paths, bytes and strings are read alike", "statement": "Reading a file gives exactly what reading its text gives (a file's text being its characters with LF, CR LF and CR all read as line ends), reading bytes gives exactly what reading the decoded text gives, and neither changes the file system; so for the KVN and the XML reader alone. A file written by to_file reads back as the text to_string returns, if that text has no carriage return.", "quantifier": "for every file content, byte string and file system", "why_tests_cant": "tests compare a few fixed files", "anchors": ["ccsds_ndm/ndm_io.py:NdmIo.from_path", "ccsds_ndm/ndm_io.py:NdmIo.from_bytes", "ccsds_ndm/ndm_kvn_io.py:NdmKvnIo.from_path", "ccsds_ndm/ndm_xml_io.py:NdmXmlIo.from_path", "ccsds_ndm/ndm_xml_io.py:NdmXmlIo.from_bytes"]}
{"id": "C04", "title": "A failing to_file never touches the target file", "statement": "If converting the object fails, to_file leaves the file system exactly as it was; if it succeeds, only the target file changes and it holds exactly the lines of the text to_string returns, with the line ends of the platform.", "quantifier": "for every object, format, path and file system", "why_tests_cant": "needs every failing object, and the whole file system as observable", "anchors": ["ccsds_ndm/ndm_io.py:NdmIo.to_file", "ccsds_ndm/ndm_kvn_io.py:NdmKvnIo.to_file", "ccsds_ndm/ndm_xml_io.py:NdmXmlIo.to_file"]}
{"id": "C05", "title": "Earlier reads do not influence later reads", "statement": "A KVN reader instance that has already read any sequence of documents (successfully or not) returns for the next document exactly what a fresh reader returns.", "quantifier": "for every sequence of documents and every next document", "why_tests_cant": "histories are unbounded", "anchors": ["ccsds_ndm/ndm_kvn_io.py:NdmKvnIo.from_string", "ccsds_ndm/ndm_kvn_io.py:NdmKvnIo._pre_process_kvn_data"]}
{"id": "C06", "title": "XML schema location is honoured on every call", "statement": "Every call of to_string on an XML writer uses the schema location given in that call. (Expected to fail on a re-used NdmXmlIo; holds through NdmIo.)", "quantifier": "for every sequence of calls on one writer", "why_tests_cant": "needs call histories", "anchors": ["ccsds_ndm/ndm_xml_io.py:NdmXmlIo.to_string", "ccsds_ndm/ndm_xml_io.py:NdmXmlIo.__init_serializer"]}
{"id": "C07", "title": "A combined XML message is unwrapped exactly when it holds one message", "statement": "Reading a combined NDM document returns the inner message when the document holds exactly one message in total, and otherwise the combined object with every message still present, in order, each downcast to its concrete class and otherwise unchanged.", "quantifier": "for every combined message (any number of messages of any kind)", "why_tests_cant": "combinations of eight lists of any length", "anchors": ["ccsds_ndm/ndm_xml_io.py:NdmXmlIo.from_string", "ccsds_ndm/ndm_xml_io.py:_strip_multi_ndm"]}
{"id": "C08", "title": "The multi-message test used by the KVN writer agrees with the reader", "statement": "The KVN writer refuses a combined message with NotImplementedError exactly when the XML reader would leave it combined.", "quantifier": "for every combined message", "why_tests_cant": "as C07", "anchors": ["ccsds_ndm/ndm_xml_io.py:_is_multi_ndm", "ccsds_ndm/ndm_xml_io.py:_strip_multi_ndm", "ccsds_ndm/ndm_kvn_io.py:NdmKvnIo.to_string"]}
{"id": "C09", "title": "A combined message holding a single message can be written as KVN", "statement": "If a combined message holds exactly one message, writing it as KVN gives the same text as writing that message. (Expected to fail.)", "quantifier": "for every combined message with one member", "why_tests_cant": "tests never write one", "anchors": ["ccsds_ndm/ndm_kvn_io.py:NdmKvnIo.to_string"]}
{"id": "C10", "title": "Layout of a KVN document is irrelevant", "statement": "Blank lines anywhere, indentation, trailing white space and carriage returns do not change the result of reading a KVN document (result includes the error raised).", "quantifier": "for every document and every such re-layout", "why_tests_cant": "all layouts of all documents", "anchors": ["ccsds_ndm/ndm_kvn_io.py:NdmKvnIo._pre_process_kvn_data"]}
{"id": "C11", "title": "Spacing around the equals sign is irrelevant and only the first equals sign separates", "statement": "A line KEY<spaces>=<spaces>VALUE is read as that key and that value whatever the spacing, and the value may itself contain equals signs.", "quantifier": "for every key, value and spacing", "why_tests_cant": "all strings", "anchors": ["ccsds_ndm/ndm_kvn_io.py:NdmKvnIo._pre_process_kvn_data"]}
{"id": "C12", "title": "Comment text survives writing and reading", "statement": "A comment written by the library and read back is the same text, including texts that begin with an equals sign or contain square brackets; \"COMMENT text\" and \"COMMENT = text\" are read alike unless the text itself starts with an equals sign.", "quantifier": "for every comment text without line breaks or surrounding white space", "why_tests_cant": "all strings", "anchors": ["ccsds_ndm/ndm_kvn_io.py:NdmKvnIo._pre_process_kvn_data", "ccsds_ndm/ndm_kvn_io.py:_fill_str_out_kvn"]}
{"id": "C13", "title": "A written KEY = VALUE [unit] line reads back as key, value and unit", "statement": "For every key, value and unit the writer can emit, the reader recovers exactly the key, the value text and the unit; a value with no unit reads back with no unit.", "quantifier": "for every key, value and unit text in the stated alphabet, any length", "why_tests_cant": "column padding interacts with long keys and values", "anchors": ["ccsds_ndm/ndm_kvn_io.py:_fill_str_out_kvn", "ccsds_ndm/ndm_kvn_io.py:NdmKvnIo._pre_process_kvn_data"]}
{"id": "C14", "title": "Free text survives even when it looks like a unit", "statement": "A free-text value that ends in \"]\" and contains \"[\" is read back unchanged. (Expected to fail.)", "quantifier": "for every text value", "why_tests_cant": "nobody tests such names", "anchors": ["ccsds_ndm/ndm_kvn_io.py:NdmKvnIo._pre_process_kvn_data"]}
{"id": "C15", "title": "Section markers are ignorable", "statement": "In OEM, AEM and TDM documents, deleting, adding or moving the marker lines (META_START/STOP, DATA_START/STOP, COVARIANCE_START/STOP as applicable) after the first line does not change the result.", "quantifier": "for every document of these types", "why_tests_cant": "all documents", "anchors": ["ccsds_ndm/ndm_kvn_io.py:NdmKvnIo.from_string", "ccsds_ndm/ndm_kvn_io.py:_deleted_keywords"]}
{"id": "C16", "title": "Message type comes from the first line only", "statement": "The type of object returned for a KVN document is fixed by the key of its first non-blank line: one of the eight CCSDS_xxx_VERS keys gives exactly that message class, anything else raises AttributeError, and a blank document raises IndexError.", "quantifier": "for every document", "why_tests_cant": "all documents", "anchors": ["ccsds_ndm/ndm_kvn_io.py:_identify_data_type", "ccsds_ndm/ndm_kvn_io.py:_NdmDataType.find_element"]}
{"id": "C17", "title": "Reading always terminates", "statement": "Reading any KVN document ends (with an object or an exception): the list-identification loop runs at most once per document line.", "quantifier": "for every document", "why_tests_cant": "non-termination cannot be tested for all inputs", "anchors": ["ccsds_ndm/ndm_kvn_io.py:NdmKvnIo.__identify_list", "ccsds_ndm/ndm_kvn_io.py:_identify_special_sub_segments"]}
{"id": "C18", "title": "Identified sections stay inside the document and in order", "statement": "Every section the reader identifies occupies a range of lines inside the document, the position never moves backwards, and consecutive elements of a list section occupy disjoint increasing ranges.", "quantifier": "for every document and every message tree", "why_tests_cant": "all documents", "anchors": ["ccsds_ndm/ndm_kvn_io.py:_get_min_max_indices", "ccsds_ndm/ndm_kvn_io.py:NdmKvnIo.__identify_sub_segments", "ccsds_ndm/ndm_kvn_io.py:NdmKvnIo.__identify_list"]}
{"id": "C19", "title": "Unknown keywords are rejected", "statement": "A KVN document containing a line whose keyword does not belong to the message is rejected, as the parser configuration (fail_on_unknown_properties) asks. (Expected to fail: dropped silently.)", "quantifier": "for every document", "why_tests_cant": "tests have one invalid file", "anchors": ["ccsds_ndm/ndm_kvn_io.py:NdmKvnIo.__build_object_tree", "ccsds_ndm/ndm_kvn_io.py:NdmKvnIo._build_object"]}
{"id": "C20", "title": "Every comment in a document is kept", "statement": "Reading a document keeps every comment line of the data section with its section. (Expected to fail: container sections claim at most one.)", "quantifier": "for every document", "why_tests_cant": "depends on comment counts", "anchors": ["ccsds_ndm/ndm_kvn_io.py:__process_comment_lines"]}
{"id": "C21", "title": "Numbers survive writing and reading exactly", "statement": "Every decimal value (sign, digits and exponent, including zeros, NaN and infinities) written as text reads back as the identical decimal, and every integer likewise.", "quantifier": "for every decimal of any precision and exponent, and every integer", "why_tests_cant": "infinitely many values", "anchors": ["ccsds_ndm/ndm_kvn_io.py:_fill_str_out_kvn", "ccsds_ndm/ndm_kvn_io.py:_collate_special_data_str_out"]}
{"id": "C22", "title": "Written KVN starts with identification and version", "statement": "Every KVN text the writer produces for a message begins with its CCSDS_xxx_VERS line carrying the version, is recognised as KVN, and is read as the same message class.", "quantifier": "for every message object the writer accepts", "why_tests_cant": "all objects", "anchors": ["ccsds_ndm/ndm_kvn_io.py:NdmKvnIo.to_string", "ccsds_ndm/ndm_io.py:_identify_data_format", "ccsds_ndm/ndm_kvn_io.py:_identify_data_type"]}
{"id": "C23", "title": "Every keyword written is the schema keyword", "statement": "For each field of each message class the keyword written (upper-cased attribute name) is the keyword the reader and the schema use for that field.", "quantifier": "for every class and field of the schema", "why_tests_cant": "600 fields; finite, settled exhaustively in the kernel", "anchors": ["ccsds_ndm/ndm_kvn_io.py:_fill_str_out_kvn", "ccsds_ndm/models/ndmxml2/*"]}
{"id": "C24", "title": "Absent values are omitted, zeros are not", "statement": "Writing a section emits exactly one line per comment and per non-None field, in field order, with the value and unit, including zero values; None fields emit nothing.", "quantifier": "for every section object", "why_tests_cant": "2^n presence patterns times all values", "anchors": ["ccsds_ndm/ndm_kvn_io.py:NdmKvnIo._collate_str_out", "ccsds_ndm/ndm_kvn_io.py:NdmKvnIo._collate_str_out_subclasses"]}
{"id": "C25", "title": "A keyword section round-trips", "statement": "For every section class made of keyword fields and every well-formed object of it with at least one field set, reading the lines written for it gives back an equal object.", "quantifier": "for every leaf section class of the schema and every well-formed object", "why_tests_cant": "all presence patterns, values and units", "anchors": ["ccsds_ndm/ndm_kvn_io.py:_xmlify_list", "ccsds_ndm/ndm_kvn_io.py:NdmKvnIo.__build_object_tree", "ccsds_ndm/ndm_kvn_io.py:NdmKvnIo._collate_str_out"]}
{"id": "C26", "title": "OMM round-trips", "statement": "Reading the KVN text written for any well-formed OMM returns an equal OMM.", "quantifier": "for every well-formed OMM (any comments, any optional sections and fields, any values)", "why_tests_cant": "unbounded objects; tests have two files", "anchors": ["ccsds_ndm/ndm_kvn_io.py:NdmKvnIo.to_string", "ccsds_ndm/ndm_kvn_io.py:NdmKvnIo.from_string"]}
{"id": "C27", "title": "OPM round-trips", "statement": "Reading the KVN text written for any well-formed OPM, with any number of maneuvers and user-defined parameters, returns an equal OPM.", "quantifier": "for every well-formed OPM", "why_tests_cant": "unbounded objects", "anchors": ["ccsds_ndm/ndm_kvn_io.py:NdmKvnIo.to_string", "ccsds_ndm/ndm_kvn_io.py:NdmKvnIo.from_string"]}
{"id": "C28", "title": "RDM round-trips", "statement": "Reading the KVN text written for any well-formed RDM returns an equal RDM.", "quantifier": "for every well-formed RDM", "why_tests_cant": "unbounded objects", "anchors": ["ccsds_ndm/ndm_kvn_io.py:NdmKvnIo.to_string", "ccsds_ndm/ndm_kvn_io.py:NdmKvnIo.from_string"]}
{"id": "C29", "title": "CDM round-trips", "statement": "Reading the KVN text written for any well-formed CDM returns an equal CDM. (Expected to hold only when the second object sets no optional field or section the first one lacks.)", "quantifier": "for every well-formed CDM", "why_tests_cant": "presence patterns across two segments", "anchors": ["ccsds_ndm/ndm_kvn_io.py:_get_min_max_indices", "ccsds_ndm/ndm_kvn_io.py:NdmKvnIo.__identify_list"]}
{"id": "C30", "title": "OEM ephemerides round-trip", "statement": "Reading the KVN text written for a well-formed OEM with any number of segments, state vectors and covariance matrices returns an equal OEM.", "quantifier": "for every well-formed OEM", "why_tests_cant": "unbounded segments and lines", "anchors": ["ccsds_ndm/ndm_kvn_io.py:NdmKvnIo.__identify_list", "ccsds_ndm/ndm_kvn_io.py:NdmKvnIo.__build_special_objects", "ccsds_ndm/ndm_kvn_io.py:_collate_special_data_str_out"]}
{"id": "C31", "title": "OEM covariance with its own reference frame is read correctly", "statement": "A covariance block carrying COV_REF_FRAME is read with that frame and the 21 numbers in place. (Expected to fail.)", "quantifier": "for every covariance block", "why_tests_cant": "tests have no such file with checked values", "anchors": ["ccsds_ndm/ndm_kvn_io.py:NdmKvnIo.__build_special_objects"]}
{"id": "C32", "title": "State-vector lines are read column by column", "statement": "Every ephemeris line of n columns gives a state vector whose first n components are those columns in order and whose other components are absent.", "quantifier": "for every line", "why_tests_cant": "all column counts and contents", "anchors": ["ccsds_ndm/ndm_kvn_io.py:NdmKvnIo.__build_special_objects"]}
{"id": "C33", "title": "Covariance rows are the lower triangle", "statement": "The 21 covariance components are written as six rows of 1..6 numbers in row order, and rows so written are read back into the same components.", "quantifier": "for every full covariance matrix", "why_tests_cant": "all values", "anchors": ["ccsds_ndm/ndm_kvn_io.py:_collate_special_data_str_out", "ccsds_ndm/ndm_kvn_io.py:NdmKvnIo.__build_special_objects"]}
{"id": "C34", "title": "TDM round-trips", "statement": "Reading the KVN text written for a well-formed TDM returns an equal TDM.", "quantifier": "for every well-formed TDM", "why_tests_cant": "unbounded observations", "anchors": ["ccsds_ndm/ndm_kvn_io.py:NdmKvnIo.to_string", "ccsds_ndm/ndm_kvn_io.py:NdmKvnIo.from_string"]}
{"id": "C35", "title": "Every TDM observation type can be written", "statement": "Any observation with an epoch and one measured value can be written. (Expected to fail for the two angle observables.)", "quantifier": "for every observation", "why_tests_cant": "each of 47 observables", "anchors": ["ccsds_ndm/ndm_kvn_io.py:_collate_special_data_str_out"]}
{"id": "C36", "title": "AEM quaternion and Euler attitude lines are interpreted by the declared order", "statement": "For a quaternion segment the columns are taken as QC Q1 Q2 Q3 when QUATERNION_TYPE is FIRST and Q1 Q2 Q3 QC when LAST, on reading and on writing; Euler angles and rates are taken about the axes that EULER_ROT_SEQ names, in its order; a document that says the header, metadata and attitude states of an AEM in any spacing reads as that AEM; and writing then reading gives back the same attitude states.", "quantifier": "for every attitude state of the quaternion and Euler types, both quaternion orders, every rotation sequence and any number of segments", "why_tests_cant": "all values", "anchors": ["ccsds_ndm/ndm_kvn_io.py:NdmKvnIo.__prepare_aemsegment_sub_objects", "ccsds_ndm/ndm_kvn_io.py:_collate_special_data_str_out"]}
{"id": "C37", "title": "Every AEM attitude type can be written and read", "statement": "QUATERNION/DERIVATIVE states can be written; SPIN states can be read. (Expected to fail.)", "quantifier": "for every attitude state", "why_tests_cant": "tests cover two attitude types", "anchors": ["ccsds_ndm/ndm_kvn_io.py:_collate_special_data_str_out", "ccsds_ndm/ndm_kvn_io.py:NdmKvnIo.__prepare_aemsegment_sub_objects"]}
{"id": "C38", "title": "User-defined parameters survive", "statement": "Each USER_DEFINED_name = value line gives a parameter with that name and value in order; writing and reading back preserves names. (Case is expected to be lost.)", "quantifier": "for every list of parameters", "why_tests_cant": "all names", "anchors": ["ccsds_ndm/ndm_kvn_io.py:_xmlify_list", "ccsds_ndm/ndm_kvn_io.py:NdmKvnIo._collate_str_out_subclasses"]}
{"id": "C39", "title": "Segments are read independently", "statement": "What one segment of a multi-segment document contains does not affect how another is read. (Expected to fail for optional keywords present only in a later segment.)", "quantifier": "for every multi-segment document", "why_tests_cant": "presence patterns across segments", "anchors": ["ccsds_ndm/ndm_kvn_io.py:_get_min_max_indices"]}
{"id": "C40", "title": "Unrecognised output formats are reported", "statement": "to_string with a format that is not XML, KVN or JSON raises. (Expected to fail: returns None.)", "quantifier": "for every format value", "why_tests_cant": "-", "anchors": ["ccsds_ndm/ndm_io.py:NdmIo.to_string"]}
{"id": "C41", "title": "An existing file survives every failing to_file", "statement": "If NdmIo.to_file raises, the file that was at the target path keeps its content. (Expected to fail: text that cannot be encoded is noticed only after the file has been truncated.)", "quantifier": "for every object, format, path, file system and encoding", "why_tests_cant": "needs all failure points of the write", "anchors": ["ccsds_ndm/ndm_kvn_io.py:NdmKvnIo.to_file", "ccsds_ndm/ndm_xml_io.py:NdmXmlIo.to_file"]}
{"id": "C42", "title": "to_file accepts a path given as str or as Path, alike for every format", "statement": "to_file with a plain string path behaves exactly as with the corresponding Path object, as documented (\"path or pathlike accepted\"). (Expected to fail for KVN: AttributeError.)", "quantifier": "for every object, format, path and file system", "why_tests_cant": "must hold for every object and both kinds of argument", "anchors": ["ccsds_ndm/ndm_io.py:NdmIo.to_file", "ccsds_ndm/ndm_kvn_io.py:NdmKvnIo.to_file"]}
{"id": "C43", "title": "In one-segment messages only comments move", "statement": "Reading the KVN text written for a well-formed OMM, OPM or RDM with at least one data section (and, for an OPM, maneuvers none of which sets a field an earlier one lacks) succeeds and returns the same message, except for the comments in front of the first data section: the first of them belongs to the data block, all others to that section.", "quantifier": "for every such message, any comments, any presence pattern of sections and fields, any values, any user-defined parameters", "why_tests_cant": "unbounded objects and presence patterns; the test files hold one arrangement each", "anchors": ["ccsds_ndm/ndm_kvn_io.py:NdmKvnIo.to_string", "ccsds_ndm/ndm_kvn_io.py:NdmKvnIo.from_string", "ccsds_ndm/ndm_kvn_io.py:__process_comment_lines"]}
{"id": "C44", "title": "The written text says exactly the fields of the message, in order", "statement": "The KVN text written for a well-formed OMM, RDM, OPM, CDM, APM, OEM, TDM (without angles) or AEM (quaternions, Euler angles and their rates) consists of the version line, then one line for each field that is set (comments first) of the header, the metadata and the data sections in schema order, with the start and stop markers of the OEM, TDM and AEM, one line per state vector, observation or attitude state and for each covariance matrix its epoch, its reference frame if it has one and six rows of one to six numbers; apart from blank lines there is nothing else.", "quantifier": "for every well-formed message of these eight types", "why_tests_cant": "all field presence patterns, values, numbers of segments, maneuvers, comments and user-defined parameters", "anchors": ["ccsds_ndm/ndm_kvn_io.py:NdmKvnIo.to_string", "ccsds_ndm/ndm_kvn_io.py:NdmKvnIo._collate_str_out_subclasses", "ccsds_ndm/ndm_kvn_io.py:_collate_special_data_str_out"]}
{"id": "C45", "title": "A document in any layout that says the fields of a message in order is read as that message", "statement": "Every KVN document, with any white space around keywords, equal signs, values and units, either comment form, and blank lines anywhere, whose lines say in schema order the fields of an OMM, RDM, OPM, CDM or APM within the limits of C26 to C29 and C47 (comments of the data block go where the reader puts them; later maneuvers and objects set no field that an earlier one lacks; Euler parts that are left out are there but empty) is read as exactly that message.", "quantifier": "for every such message and every layout", "why_tests_cant": "unbounded messages and layouts", "anchors": ["ccsds_ndm/ndm_kvn_io.py:NdmKvnIo.from_string", "ccsds_ndm/ndm_kvn_io.py:NdmKvnIo._pre_process_kvn_data"]}
{"id": "C46", "title": "Texts that do not fit their field are kept", "statement": "A text that is not a number in a numeric field, or not a member of the enumeration in an enumerated field, is read as that text and written back as the same line. (For units outside their enumeration the second half is expected to fail.)", "quantifier": "for every section class, every numeric or enumerated keyword of it and every such text", "why_tests_cant": "all texts outside the enumerations", "anchors": ["ccsds_ndm/ndm_kvn_io.py:_xmlify_list", "ccsds_ndm/ndm_kvn_io.py:NdmKvnIo._collate_str_out_subclasses"]}
{"id": "C47", "title": "APM round-trips", "statement": "Reading the KVN text written for any well-formed APM (a quaternion state with or without quaternion and rates, Euler elements with or without rotation angles and rates about any axes, spin elements, spacecraft parameters, any number of maneuvers) returns an equal APM.", "quantifier": "for every well-formed APM", "why_tests_cant": "unbounded objects; all presence patterns of the optional parts and fields, all axes and values, any comments", "anchors": ["ccsds_ndm/ndm_kvn_io.py:NdmKvnIo.to_string", "ccsds_ndm/ndm_kvn_io.py:NdmKvnIo.from_string", "ccsds_ndm/ndm_kvn_io.py:_xmlify_single_elem", "ccsds_ndm/ndm_kvn_io.py:_xmlify_list"]}
{"id": "C48", "title": "One write and read settles a message", "statement": "For every OMM, RDM, OPM, CDM and APM that C26 to C29 and C47 cover, reading the written text gives a message whose written text says the same lines in the same order, and reading that second text gives the same message again, even where the first read moved comments or filled in parts that were left out.", "quantifier": "for every such message", "why_tests_cant": "unbounded messages, presence patterns and comment placements", "anchors": ["ccsds_ndm/ndm_kvn_io.py:NdmKvnIo.to_string", "ccsds_ndm/ndm_kvn_io.py:NdmKvnIo.from_string"]}
{"id": "C49", "title": "The version text of a document has no influence on what is read", "statement": "Two KVN documents that differ only in the value given in the first line (CCSDS_xxx_VERS) are read with the same result, a message or an error; the version is neither checked nor kept.", "quantifier": "for every document, readable or not, and every two non-empty version texts of characters that XML allows", "why_tests_cant": "all documents of every message type, all version texts", "anchors": ["ccsds_ndm/ndm_kvn_io.py:NdmKvnIo.from_string", "ccsds_ndm/ndm_kvn_io.py:NdmKvnIo._pre_process_kvn_data", "ccsds_ndm/ndm_kvn_io.py:_xmlify_root"]}
{"id": "C50", "title": "Reading invents nothing", "statement": "In a message read from a KVN document every value of a keyword field is the text, or the number or enumeration member spelled by the text, that some line of the document gives under the field's own keyword; its unit stands in brackets on that line. The values of state vectors, covariance matrices and tracking observations are words of lines of the document (an observation's value stands on a line with its own keyword). User defined parameters take their value and name from one line. All values of an attitude ephemeris record are words of one line of the document; they are then spelled again, which takes 'Type' out of a text and writes a number without its positive exponent. The value made from an empty text is left open.", "quantifier": "for every document of every message type that is read successfully", "why_tests_cant": "all documents, including malformed ones in which sections overlap, repeat or are interrupted", "anchors": ["ccsds_ndm/ndm_kvn_io.py:NdmKvnIo.from_string", "ccsds_ndm/ndm_kvn_io.py:NdmKvnIo._build_object", "ccsds_ndm/ndm_kvn_io.py:_xmlify_list", "ccsds_ndm/ndm_kvn_io.py:NdmKvnIo._identify_segments"]}
{"id": "C52", "title": "The order of the lines of a section does not matter", "statement": "Take two keywords that belong to the same sections of a message type (every class of the message has both or neither). If in a document all lines with these keywords stand side by side, two and two, then exchanging two such neighbouring lines does not change the outcome of reading, be it a message or an error. Hence the lines of a section whose keywords occur nowhere else may stand in any order. Conditions: in a tracking message the values of these lines begin with a letter (a date at the start of a later segment's metadata is taken for an observation: refuted without the condition), and user defined lines or ephemeris covariance lines stand only before the lines in question, or only after them with no comment before them.", "quantifier": "for every document of every message type, readable or not, every pair of such keywords, and every permutation of the lines of a section", "why_tests_cant": "all documents, all keyword pairs and all orders of lines", "anchors": ["ccsds_ndm/ndm_kvn_io.py:NdmKvnIo.from_string", "ccsds_ndm/ndm_kvn_io.py:NdmKvnIo._identify_segments", "ccsds_ndm/ndm_kvn_io.py:_get_min_max_indices", "ccsds_ndm/ndm_kvn_io.py:NdmKvnIo._build_object", "ccsds_ndm/ndm_kvn_io.py:_xmlify_list"]}
{"id": "C51", "title": "A header keyword said twice is refused", "statement": "If within the header of a document (the lines after the first, up to a header keyword that is said only once) some keyword other than COMMENT stands on two lines and none on three, reading the document fails: it never returns a message. The full claim, that any repeated header keyword is an error, is refuted: a keyword repeated after the last new keyword of the header is silently ignored, and a keyword said three times keeps its first value and drops the rest of the header.", "quantifier": "for every message type, every header of any length with comments and blank lines anywhere, every repeated keyword, and every continuation of the document that says no header keyword new to the header", "why_tests_cant": "all headers with repeated keywords and all continuations of the document", "anchors": ["ccsds_ndm/ndm_kvn_io.py:NdmKvnIo.from_string", "ccsds_ndm/ndm_kvn_io.py:_get_min_max_indices", "ccsds_ndm/ndm_kvn_io.py:_xmlify_list"]}
{"id": "C53", "title": "Numbers are read by what they spell", "statement": "A text of ASCII characters is read as a decimal number exactly when, without white space around it and without underscores, it consists of a sign, figures with at most one point among them and an exponent (or is a word for infinity or NaN), and the number has the sign, the figures and the exponent so spelled: leading zeros, a point at either end, the letter case of the exponent and the underscores make no difference. A whole number is read exactly when its text is a sign and figures with underscores only between figures, and it has that value. A text is accepted as a floating point number (the test by which rows of a covariance matrix are recognised) exactly when it spells one, with underscores only between figures. Every number written spells the value it was written for.", "quantifier": "for every ASCII text of any length and every decimal and whole number", "why_tests_cant": "infinitely many spellings and values", "anchors": ["ccsds_ndm/ndm_kvn_io.py:_xmlify_list", "ccsds_ndm/ndm_kvn_io.py:_identify_special_sub_segments", "ccsds_ndm/ndm_kvn_io.py:_collate_special_data_str_out"]}
{"id": "C54", "title": "How a number is spelled has no influence on what is read", "statement": "Two documents that differ only in how one number is spelled, the two spellings standing for the same decimal or whole number (C53) of a keyword that takes numbers, are read alike: both give the same message or both the same error. Spacing around the number and the unit may differ too. Lines with user defined parameters must stand all before or all after the number (in the latter case with no comment before it), and tracking data messages are left out; both exceptions are shown to be needed: a keyword repeated between user defined parameters is read as one of them, with its text, and in a tracking data message a metadata value of four figures makes the reader fail with IndexError where the same value with a plus sign is read.", "quantifier": "for every message type except TDM, every document of any length, every numeric keyword and every two spellings of the same number; by repetition for any number of respelled values", "why_tests_cant": "infinitely many spellings in unbounded documents, including those that reading rejects", "anchors": ["ccsds_ndm/ndm_kvn_io.py:NdmKvnIo.from_string", "ccsds_ndm/ndm_kvn_io.py:_xmlify_list", "ccsds_ndm/ndm_kvn_io.py:_identify_special_sub_segments"]}
{"id": "C55", "title": "Saved files hold the last message saved under their name", "statement": "After any sequence of saves as KVN through NdmIo.to_file, every file loads (through NdmIo.from_path or NdmKvnIo.from_path) as exactly the message last saved under its name, and files under other names are unchanged, for every message whose parts are valid and can be told apart by the reader (the messages of the round trips C26-C30, C34, C36, C47) and whose text has no carriage return. Saving such a message fails only when the file cannot be opened or the text not encoded. Two such messages with the same text are the same message; without the condition on comments this is refuted.", "quantifier": "for every sequence of saves of any length, every file system state, every message of all eight types within the conditions, on platforms with either line end", "why_tests_cant": "all sequences of saves and all messages", "anchors": ["ccsds_ndm/ndm_io.py:NdmIo.to_file", "ccsds_ndm/ndm_io.py:NdmIo.from_path", "ccsds_ndm/ndm_kvn_io.py:NdmKvnIo.to_file", "ccsds_ndm/ndm_kvn_io.py:NdmKvnIo.from_path"]}
{"id": "C56", "title": "Changing the value of one line changes at most one field", "statement": "Two documents that differ only in the value of one line are either both read, to messages that differ at most in one field, whose keyword is the keyword of that line, or both rejected with the same error. The values may be any texts that fit on a line, numbers or not. Left out are comments, the keywords whose values say how other lines are read (ATTITUDE_TYPE, QUATERNION_TYPE, EULER_ROT_SEQ), the keywords of rotations, tracking data messages, and lines between user defined parameters. The rotation keywords are rightly left out: an APM with a single X_ANGLE line is read as three rotations that all take its value.", "quantifier": "for every message type except TDM, every document of any length, every line with an ordinary keyword and every two values", "why_tests_cant": "all documents and all pairs of values, including documents in any order and documents that are rejected", "anchors": ["ccsds_ndm/ndm_kvn_io.py:NdmKvnIo.from_string", "ccsds_ndm/ndm_kvn_io.py:__identify_sub_segments", "ccsds_ndm/ndm_kvn_io.py:_get_min_max_indices", "ccsds_ndm/ndm_kvn_io.py:_build_object"]}
{"id": "C57", "title": "A line with an unknown keyword is ignored", "statement": "Take an OMM, OPM, RDM, APM or CDM document that can be read, and put in one more line whose keyword the standard does not know. If the line stands directly before a line of a section that may hold comments and comes once, the message read is the same. The keyword has no space and is not said elsewhere; up to the last line of that section no keyword but COMMENT is said twice and none has a space; user defined parameters come last. Elsewhere the line is not harmless: before the first maneuver it makes all maneuvers disappear, between user defined parameters it becomes one of them, and two such lines with the same keyword, or one whose keyword has a space, make the rest of the section disappear, in each case without an error.", "quantifier": "for every document of these five types that can be read, of any length and with any number of maneuvers or segments, every unknown keyword, every value and every such place", "why_tests_cant": "all documents, all places in them and all unknown words", "anchors": ["ccsds_ndm/ndm_kvn_io.py:NdmKvnIo.from_string", "ccsds_ndm/ndm_kvn_io.py:__identify_sub_segments", "ccsds_ndm/ndm_kvn_io.py:_get_min_max_indices", "ccsds_ndm/ndm_kvn_io.py:_build_object"]}
{"id": "C58", "title": "Line ends make no difference", "statement": "A KVN document in a file gives the same message whatever its line ends are (LF, CR LF, CR, also mixed), through NdmIo.from_path and NdmKvnIo.from_path: the message read from its lines joined with LF and given as a string. Given as a string or as bytes it gives the same message with LF and CR LF; with CR alone this is refuted, so that a file and its own bytes can be read differently. A carriage return inside a value survives in the text but is refuted to survive in a file: the message loaded from a saved file silently differs.", "quantifier": "for every list of lines, every choice of a line end after every line, every file system and path", "why_tests_cant": "all documents and all mixtures of line ends; the sample files have LF only", "anchors": ["ccsds_ndm/ndm_io.py:NdmIo.from_path", "ccsds_ndm/ndm_io.py:NdmIo.from_bytes", "ccsds_ndm/ndm_kvn_io.py:NdmKvnIo.from_path", "ccsds_ndm/ndm_kvn_io.py:_pre_process_kvn_data"]}
{"id": "C59", "title": "The KVN writer invents no characters", "statement": "Every character of a text returned by to_string in KVN format is a line end, printable ASCII, a character that occurs in a string or name of the message, or part of the upper-case form of one. So a message without carriage returns has a text without. Line ends in values are not escaped: it is refuted that different messages have different texts, a value with a line end can write further lines, which are read as another message.", "quantifier": "for every object of any shape and every text written for it", "why_tests_cant": "all objects and all Unicode values", "anchors": ["ccsds_ndm/ndm_kvn_io.py:NdmKvnIo.to_string", "ccsds_ndm/ndm_kvn_io.py:_collate_str_out", "ccsds_ndm/ndm_kvn_io.py:_collate_str_out_subclasses", "ccsds_ndm/ndm_kvn_io.py:_collate_special_data_str_out"]}
{"id": "C60", "title": "A comment line adds one comment and changes nothing else", "statement": "Take an OMM, OPM, RDM, APM or CDM document that can be read, and put one COMMENT line between two lines of a section that the message holds once. The longer document can be read, and the message has that comment among the comments of that section and is otherwise the same message. The lines up to the last one of the section say no keyword twice and no keyword has a space, the sections come in the order of the standard, and user defined parameters come last. It is refuted for sections out of order (the comment is read into two sections) and for a comment behind the last line (it is lost without a word).", "quantifier": "for every document of the five types, every section, every place between two of its lines, every comment text and every reading environment", "why_tests_cant": "all documents, all places and all comment texts", "anchors": ["ccsds_ndm/ndm_kvn_io.py:NdmKvnIo.from_string", "ccsds_ndm/ndm_kvn_io.py:NdmKvnIo._identify_segments", "ccsds_ndm/ndm_kvn_io.py:__process_comment_lines", "ccsds_ndm/ndm_kvn_io.py:NdmKvnIo.__build_object_tree"]}
{"id": "C61", "title": "A line put between two lines of its section sets its field and changes nothing else", "statement": "Take an OMM, OPM, RDM, APM or CDM document that can be read, and put one line KEY = value or KEY = value [unit] between two lines of a section that the message holds once, where KEY is a keyword of that section that no other line has. The longer document can be read; in the message the field of KEY, which was None, is set from that line (a number if the text spells one and the field is numeric, the text itself if the field is a text, the unit kept where the class has units), and the message is otherwise the same. The lines up to the last one of the section say no keyword twice and no keyword has a space, the sections come in the order of the standard, and user defined parameters come last. It is refuted for a line outside its section (it may be lost without a word) and for a keyword said twice (the document is rejected).", "quantifier": "for every document of the five types, every section, every two lines of it, every keyword of the section, every value, unit and spacing, and every reading environment", "why_tests_cant": "A test adds one keyword to one sample file; the claim is about every keyword of every section in every document, and that no other field of the whole message moves.", "anchors": ["ccsds_ndm/ndm_kvn_io.py:NdmKvnIo.from_string", "ccsds_ndm/ndm_kvn_io.py:NdmKvnIo._identify_segments", "ccsds_ndm/ndm_kvn_io.py:__process_comment_lines", "ccsds_ndm/ndm_kvn_io.py:NdmKvnIo.__build_object_tree"]}
{"id": "C62", "title": "Which exceptions reading a document may raise, and why a document is rejected", "statement": "Reading a KVN document whose first line names one of the eight message types either gives a message or raises IndexError or the error with which the XML libraries reject the generated XML; reading an AEM document may also raise ValueError or KeyError, and nothing else is raised. For OMM, OPM, RDM, APM and CDM a rejection by the XML libraries has one of two causes: the text has a character that XML does not allow, or two lines say the same keyword other than COMMENT. So a document of these types that has neither is read, or IndexError is raised. The converse is refuted (a keyword said twice may be dropped without a word), and so is that a document without a mandatory keyword is not read (the field is left None).", "quantifier": "for every text whose first line that is not blank names a message type, and every reading environment", "why_tests_cant": "A test shows the exception for one malformed file; the claim excludes every other exception for every malformed text.", "anchors": ["ccsds_ndm/ndm_kvn_io.py:NdmKvnIo.from_string", "ccsds_ndm/ndm_kvn_io.py:NdmKvnIo._identify_segments", "ccsds_ndm/ndm_kvn_io.py:NdmKvnIo.__build_object_tree", "ccsds_ndm/ndm_kvn_io.py:__prepare_aemsegment_sub_objects", "ccsds_ndm/ndm_kvn_io.py:_xmlify_list"]}
{"id": "C63", "title": "Documents without trouble are read", "statement": "A KVN document of type OMM, OPM, RDM, APM or CDM is read, and the result is a message of the type named in its first line, whenever it is written in characters XML allows, says no keyword but COMMENT twice, has an equals sign in every line that is neither blank nor a comment, and its last line that is not blank is a comment or has a keyword that belongs neither to the header nor to the metadata (for a CDM: nor to the relative data). Nothing else is asked: keywords may be missing, unknown or out of order and values may be any text. The last two conditions are needed: a document that ends in its metadata raises IndexError, and so does one with a keyword line without an equals sign.", "quantifier": "for every text whose first line that is not blank names one of these five message types, and every reading environment", "why_tests_cant": "Tests read a few well formed files; the claim covers every combination of missing, unknown, misplaced and oddly valued lines.", "anchors": ["ccsds_ndm/ndm_kvn_io.py:NdmKvnIo.from_string", "ccsds_ndm/ndm_kvn_io.py:NdmKvnIo._identify_segments", "ccsds_ndm/ndm_kvn_io.py:_get_min_max_indices", "ccsds_ndm/ndm_kvn_io.py:NdmKvnIo.__build_object_tree", "ccsds_ndm/ndm_kvn_io.py:_xmlify_list"]}
{"id": "C64", "title": "Taking a line out of a document undoes what the line said", "statement": "Take a KVN document of type OMM, OPM, RDM, APM or CDM that gives no reason to complain (characters XML allows, no keyword but COMMENT twice, an equals sign in every keyword line, not ending in header or metadata), with its sections in the order of the standard, user defined parameters last and no spaces inside keywords. Take out one line between two lines of a section that comes once. The document is still read. If the line set a field, the new message is the old one with that field empty and nothing else changed. If it was a comment, one comment of that section is gone and nothing else. If its keyword is unknown to every class of the message, the message is the same. At the end of a section this is refuted (a comment before the line moves to the next section), and so is that a document can be read without any one of its lines.", "quantifier": "for every such document, section, line and reading environment", "why_tests_cant": "There are more documents, lines and positions than tests can list; the claim says that all other fields are unchanged in every one of them.", "anchors": ["ccsds_ndm/ndm_kvn_io.py:NdmKvnIo.from_string", "ccsds_ndm/ndm_kvn_io.py:NdmKvnIo._identify_segments", "ccsds_ndm/ndm_kvn_io.py:_get_min_max_indices", "ccsds_ndm/ndm_kvn_io.py:NdmKvnIo.__build_object_tree"]}
{"id": "C65", "title": "A message that was read can be written", "statement": "Read a KVN document of any type but AEM. If the message holds no unit that was kept as a text because its enumeration does not have it, and no tracking observation without a number (an angle or a text that is not a number), then NdmKvnIo.to_string returns a text for it: no attribute, list, matrix or record that reading can produce makes the writer raise. More exactly, writing a message that was read raises nothing but AttributeError, and that only if such a unit is in it, or IndexError, and that only if such an observation is in it. Conversely, whenever to_string returns a text, no value with a line of its own (any field of a section, sections in lists included) has such a unit. The two conditions are needed (refuted without them: an unknown unit and a TDM angle are read and cannot be written), and the claim is refuted for AEM: an attitude record that has only its epoch is read and cannot be written.", "quantifier": "for every text, every message type other than AEM and every environment in which empty text is read as an empty text or None", "why_tests_cant": "Tests write the messages of some sample files; this says that no document whatever, with missing fields, short records, unknown frames, texts in place of numbers or empty values, leads to a message on which the writer raises.", "anchors": ["ccsds_ndm/ndm_kvn_io.py:NdmKvnIo.to_string", "ccsds_ndm/ndm_kvn_io.py:NdmKvnIo._collate_str_out", "ccsds_ndm/ndm_kvn_io.py:NdmKvnIo._collate_str_out_subclasses", "ccsds_ndm/ndm_kvn_io.py:NdmKvnIo.from_string"]}
{"id": "C66", "title": "A message that was read fits the schema", "statement": "Whatever text NdmKvnIo.from_string accepts, the message it returns fits the classes of the schema: it is an object of one of the seven message classes, and every object in it has exactly the variables its class declares, in that order. A list field holds a list. A field that is no list holds None or a value of its declared type: a text, a whole number, a decimal in canonical form, a member of the declared enumeration, or an object of the declared class. The only exceptions are texts in place of a number or of a member of an enumeration, and only if the text spells no number or no member; a text that does is never left unconverted (texts that are not ASCII are left open for numbers). Elements of a list fit the element type or are None. That numeric fields hold only numbers is refuted.", "quantifier": "for every text and every environment in which empty text is read as an empty text or None", "why_tests_cant": "Tests look at some attributes of the messages of sample files; this is about every attribute of every object of any message that any accepted text leads to, however odd the document.", "anchors": ["ccsds_ndm/ndm_kvn_io.py:NdmKvnIo.from_string", "ccsds_ndm/ndm_kvn_io.py:NdmKvnIo.__build_object_tree", "ccsds_ndm/models/ndmxml2"]}
{"id": "C67", "title": "Converting a message that was read keeps its values and its comments", "statement": "Read a KVN document of type OMM, OPM, RDM or CDM with NdmKvnIo.from_string and write the message with to_string. If nothing in the message is blank or misleading (no value without a number, texts on one line that do not end like a unit, no text with only the characters of a number in the place of a number, no unit the schema does not know, no section with nothing but comments), if header, metadata and some section of the data block are there, user defined parameters have names that fit in a keyword, and no repeated section (manoeuvres, CDM objects) has a field that one before it lacks, then the text is read again as a message with the same values, attribute by attribute, and the same comments in the same order, and to_string writes that message as the same text, character for character, so that reading it gives exactly that message again. That the message read after the first conversion is the very one that was written is refuted: a comment inside a section may move to the data block.", "quantifier": "for every document that is read as such a message, and every environment in which empty text is read as an empty text or None", "why_tests_cant": "Tests convert the messages of sample files; this is about every text that is accepted, with any layout, any missing fields and any values, and it compares all attributes and all comments.", "anchors": ["ccsds_ndm/ndm_kvn_io.py:NdmKvnIo.from_string", "ccsds_ndm/ndm_kvn_io.py:NdmKvnIo.to_string", "ccsds_ndm/ndm_kvn_io.py:NdmKvnIo._collate_str_out", "ccsds_ndm/ndm_kvn_io.py:NdmKvnIo.__build_object_tree"]}
{"id": "C68", "title": "Copies of a saved message are identical, and the text tells messages apart", "statement": "For every OMM, OPM, RDM and CDM made of valid parts, wherever its comments stand, and for every OEM, TDM, AEM and APM of C55: the text that to_string writes is read, and the message read is written as the same text, character for character. Two such messages with the same text have the same values, attribute by attribute, and the same comments in the same order. If such a message without carriage returns is saved as KVN with NdmIo.to_file and the file is copied by NdmIo.from_path and to_file over and over, under any names and also over itself, then every file written has the content of the first and loads as the same message, with the values and the comments of the one saved. For an APM whose Euler elements are left out the text is refuted to be the same the second time: it gains lines.", "quantifier": "for every such message, every environment, every file system and every sequence of copies of any length", "why_tests_cant": "all messages, all placements of comments and all sequences of copies", "anchors": ["ccsds_ndm/ndm_kvn_io.py:NdmKvnIo.to_string", "ccsds_ndm/ndm_kvn_io.py:NdmKvnIo._collate_str_out", "ccsds_ndm/ndm_kvn_io.py:NdmKvnIo.from_string", "ccsds_ndm/ndm_io.py:NdmIo.to_file", "ccsds_ndm/ndm_io.py:NdmIo.from_path"]}
{"id": "C69", "title": "Converting an XML message to KVN keeps its values and its comments", "statement": "Let NdmIo.from_string or from_path return an OMM, OPM, RDM or CDM for any input, be it KVN, XML, or XML with the message alone in a combined message, where the XML parser gives objects that fit the schema. If nothing in the message is blank or misleading and its parts are there (the conditions of C67), then the KVN text written for it is read as a message with the same values, attribute by attribute, and the same comments in the same order, and that message is written as the same text. Saved as a KVN file with to_file (no carriage return in the text), it is loaded with from_path as a message with the same values and comments, and files made from it by loading and saving over and over have the same content.", "quantifier": "for every such input, every XML parser whose results fit the schema, every file system, and every environment in which empty text is read as an empty text or None", "why_tests_cant": "Tests convert sample files; this is about all messages, all values and missing parts, and whatever the XML parser returns within the schema.", "anchors": ["ccsds_ndm/ndm_io.py:NdmIo.from_string", "ccsds_ndm/ndm_io.py:NdmIo.from_path", "ccsds_ndm/ndm_io.py:NdmIo.to_file", "ccsds_ndm/ndm_xml_io.py:NdmXmlIo.from_string", "ccsds_ndm/ndm_xml_io.py:_strip_multi_ndm", "ccsds_ndm/ndm_kvn_io.py:NdmKvnIo.to_string"]}
{"id": "C70", "title": "A complete message that fits the schema can be written as KVN", "statement": "Take a message object of any of the eight types that fits the data classes (SpecSchema.conforms), wherever it comes from: a parsed XML document, or a program that filled in the classes, with any attribute left None. Suppose no list in it holds None, every user defined parameter has a name, every rotation angle or rate names its axis, every ephemeris state vector has an epoch, no unit is a text outside its enumeration and every tracking observation has a number. For an AEM suppose also that in every attitude record something is set and nothing but units is missing from it, that none gives quaternion derivatives, and that a segment with quaternions says their order in its metadata. Then NdmKvnIo.to_string returns a text. For the types other than AEM, without the conditions on units and observations it raises nothing but AttributeError, and that only if there is such a unit, or IndexError, and that only if there is such an observation. So a message read from text of any format by NdmIo.from_string can be written with NdmIo.to_string as KVN under the same conditions. Each of the first four conditions is needed (refuted when it is left out: a message that meets all the others raises), and so are those on derivatives and on the order of quaternions (KeyError and StopIteration).", "quantifier": "for every message object of the eight types that fits the schema, and every XML parser whose results fit the schema", "why_tests_cant": "Tests write a few sample messages in which header, metadata and data are filled in; this covers every combination of missing attributes, sections, list lengths and values in all classes of eight message types.", "anchors": ["ccsds_ndm/ndm_kvn_io.py:NdmKvnIo.to_string", "ccsds_ndm/ndm_kvn_io.py:NdmKvnIo._collate_str_out", "ccsds_ndm/ndm_kvn_io.py:NdmKvnIo._collate_str_out_subclasses", "ccsds_ndm/ndm_io.py:NdmIo.to_string"]}
