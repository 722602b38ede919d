C01|proved|
C02|proved|
C03|proved|that reading leaves the file system alone is a fact about the model's types: reading functions return no file system
C04|proved|see C41 for the one failure mode that does touch the file
C05|proved|
C06|partial|the property is false for a re-used writer (refuted, exact behaviour characterised); holds through NdmIo
C07|proved|
C08|proved|
C09|partial|the property is false (refuted): the writer always raises AttributeError
C10|proved|
C11|proved|
C12|proved|
C13|proved|
C14|partial|the property is false (refuted)
C15|proved|
C16|proved|
C17|proved|
C18|proved|
C19|partial|the property is false (refuted)
C20|partial|the property is false (refuted)
C21|proved|
C22|proved|
C23|proved|
C24|proved|
C40|partial|the property is false (refuted)
C41|partial|the property is false (refuted)
C42|partial|the property is false for KVN (refuted), true for XML
C26|partial|false as stated because comments move; the exact read-back is proved, with equality when the comments are settled and at least one section is present
C28|partial|false as stated because comments move; the exact read-back is proved, with equality when the comments are settled and at least one section is present
C25|proved|
C27|partial|false as stated (refuted): comments move and a field only a later maneuver has makes the reader fail; proved with settled comments and maneuvers without new fields, in particular complete ones
C43|proved||C26_omm_read_back,C27_opm_read_back,C28_rdm_read_back
C29|partial|false as stated (refuted): comments move, and a field or section only the second object has makes the reader fail or merge the objects; proved with settled comments and no such fields
C31|partial|the property is false (refuted): the frame line shifts the numbers
C34|partial|false as stated (refuted: epochs of 30 or more characters, two data comments, metadata fields that only a later segment has, metadata starting with a short number); proved for segments the reader can tell apart and observations other than angles
C35|partial|false (refuted) for the two angle observables; proved for the other 45
C36|partial|false as stated (refuted: lower-case spellings of the type and order, missing order, epochs containing "Type", two data comments, comments that move); proved for documents in any spacing and for writing then reading, for segments the reader can tell apart; positive exponents are written out
C37|partial|the property is false (refuted) for quaternion derivatives and both spin types
C38|partial|false as stated (refuted: name case, repeated last name, comments, inner prefix, bracketed endings); proved for upper-case distinct names inside the OMM, OPM and RDM read-backs|C26_omm_read_back,C27_opm_read_back,C28_rdm_read_back
C39|partial|the property is false (refuted); the CDM read-back states the conditions under which it holds|C29_cdm_objects_mixed_refuted
C30|partial|false without restrictions (refuted: data comment moves, extra matrix, two data comments split the segment, units dropped, gaps shift columns, matrix comments lose the matrix, tab-separated columns); proved for messages within stated conditions, for writing then reading and for documents in any layout
C32|proved|
C33|proved|read by the first theorem, written by the OEM text theorem|C44_oem_text
C44|proved|
C45|proved|
C46|partial|proved for values of every section class, and inside the message round trips; refuted for units: an unknown unit is read and then makes writing fail
C47|partial|false as stated (refuted): Euler elements or rotations that are left out are read back as empty objects, and comments move; exact read-back proved for every APM whose later maneuvers set no new field, equality when nothing of the Euler part is left out and comments are settled
C48|proved|
C49|proved|
C50|proved|
C52|proved|the refuted theorem shows that the condition on tracking messages is needed
C51|partial|the refuted theorems show a repetition that is ignored and one that loses the rest of the header
C53|proved|the statements about data lines (C30, C32-C34, C36) and about where values come from (C50) use the same spelling rules
C54|proved|the refuted theorems show that both exceptions are needed
C55|proved|the conditions are those of the round trips; the refuted theorem shows that the condition on comments is needed
C56|proved|the refuted theorem shows what happens with the rotations of an APM; C54 has the counterexamples for user defined parameters and tracking data
C57|proved|the refuted theorems show what such a line does before maneuvers, between user defined parameters, said twice, or with a space in its keyword
C58|proved|the refuted theorems are the cases named in the statement: CR alone in strings and bytes, and a carriage return inside a value of a saved message
C59|proved|the refuted theorem shows that line ends in values are not escaped
C60|proved|the refuted theorems show what happens with sections out of order and with a comment behind the last line
C61|proved|the refuted theorems show what happens with a line outside its section and with a second line of the same keyword
C62|proved|the refuted theorems show that a keyword said twice may be dropped and that mandatory keywords are not enforced
C63|proved|the refuted theorems show that the equals sign and the end outside header and metadata are needed
C64|proved|the refuted theorems show what happens at the end of a section and when the only data line is taken out
C65|proved|for every type but AEM; the refuted theorems show that the two conditions are needed and that AEM has to be left out
C66|proved|the refuted theorem shows that a numeric field may hold a text that spells no number
C67|proved|for OMM, OPM, RDM and CDM; the refuted theorem shows that comments may move in the first conversion
C68|proved|the refuted theorem is about APMs whose Euler elements are left out
C69|proved|for every XML parser whose results fit the schema (parser_fits); xsdata itself is not modelled
C70|proved|which exceptions are raised is not stated for AEM
