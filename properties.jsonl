{"id": "C01", "title": "Attribute escaping is undone exactly by an XML reader", "statement": "Text printed with lxml_escape_for_html inside a double-quoted XML attribute is read back by an XML parser as the original string, for every string of XML characters that contains no line feed and no carriage return; the escaped text itself contains no '<', '>', '\"', \"'\", tab or no-break space. The restriction is necessary: a line feed or carriage return in the string comes back as a space.", "quantifier": "every string of XML characters", "why_tests_cant": "infinitely many strings and interactions between the seven sequential replacements", "anchors": ["reqif/helpers/lxml.py:lxml_escape_for_html", "reqif/parsers/*.py (LONG-NAME, DESC)"]}
{"id": "C02", "title": "Text escaping is undone exactly by an XML reader", "statement": "Text printed with lxml_escape_for_html as element content is read back by an XML parser as the original string, for every string of XML characters without carriage return (line feeds and tabs survive).", "quantifier": "every string of XML characters", "why_tests_cant": "infinitely many strings", "anchors": ["reqif/helpers/lxml.py:lxml_escape_for_html", "reqif/helpers/lxml.py:lxml_stringify_namespaced_children"]}
{"id": "C03", "title": "Sequential replacements equal one simultaneous substitution", "statement": "The chain of str.replace calls in lxml_escape_for_html, reqif_escape and html.escape replaces every special character exactly once by its entity and leaves every other character alone (no double escaping), hence all three are injective.", "quantifier": "every string", "why_tests_cant": "ordering bugs in replace chains only show on strings combining specific characters", "anchors": ["reqif/helpers/lxml.py:lxml_escape_for_html", "reqif/helpers/string/escape.py:reqif_escape", "reqif/parsers/attribute_value_parser.py (html.escape)"]}
{"id": "C04", "title": "STRING attribute values survive write-then-read", "statement": "An ATTRIBUTE-VALUE-STRING written by unparse and read back by parse has the same value, for every value of XML characters without tab, line feed and carriage return; with one of these the value silently changes (they become spaces).", "quantifier": "every value string", "why_tests_cant": "infinitely many values; whitespace normalisation is invisible to example-based tests", "anchors": ["reqif/parsers/attribute_value_parser.py:unparse_attribute_values", "reqif/parsers/attribute_value_parser.py:parse_attribute_values"]}
{"id": "C05", "title": "XHTML indent / unindent are inverse", "statement": "reqif_unindent_xhtml_string(reqif_indent_xhtml_string(s)) equals s.strip() exactly when s.strip() contains no run of 16 spaces; for such texts indenting loses nothing but the surrounding blanks. Every line of s.strip() is written on a line of its own after 16 spaces, followed by a last line of 14 spaces. With a run of 16 spaces the law fails.", "quantifier": "every string", "why_tests_cant": "string length and number of lines unbounded", "anchors": ["reqif/helpers/string/xhtml_indent.py:reqif_indent_xhtml_string", "reqif/helpers/string/xhtml_indent.py:reqif_unindent_xhtml_string"]}
{"id": "C06", "title": "ReqIF timestamps have the documented shape", "statement": "reqif_datetime_format yields YYYY-MM-DDTHH:MM:SS.mmm+HH:MM with exactly the datetime's fields (milliseconds truncated) for every aware datetime with year 1000-9999 and whole-minute UTC offset; it is wrong for naive datetimes, for offsets with seconds and for years below 1000.", "quantifier": "every datetime value", "why_tests_cant": "the datetime domain is far too large; the slicing assumes fixed widths", "anchors": ["reqif/helpers/reqif_datetime.py:reqif_datetime_format"]}
{"id": "C07", "title": "Hierarchy iteration is a complete pre-order walk", "statement": "iterate_specification_hierarchy yields every node of the specification's hierarchy exactly once, parents before descendants and siblings in document order; any prefix the caller consumes is a prefix of that pre-order; a specification without CHILDREN yields nothing. The other iterator, SpecificationIterator, walks in the same order but raises TypeError for a specification without CHILDREN.", "quantifier": "every tree and every number of consumed items", "why_tests_cant": "trees of any shape and depth", "anchors": ["reqif/reqif_bundle.py:iterate_specification_hierarchy", "reqif/specification_iterator.py:iterate_specification"]}
{"id": "C08", "title": "Parsed hierarchy levels equal nesting depth", "statement": "In a parsed document each SPEC-HIERARCHY directly under a SPECIFICATION has level 1 and each nested one has its parent's level plus one.", "quantifier": "every document that parses", "why_tests_cant": "depth unbounded", "anchors": ["reqif/parsers/spec_hierarchy_parser.py:parse", "reqif/parsers/specification_parser.py:parse"]}
{"id": "C09", "title": "add_child preserves the level discipline", "statement": "Starting from fresh nodes, after any sequence of add_child calls (accepted or rejected) every child's level is its parent's plus one, the accepted children appear in call order, and a rejected call raises AssertionError. A rejected call on a childless node nevertheless turns children from None into an empty list, which changes the printed XML.", "quantifier": "every sequence of add_child calls", "why_tests_cant": "histories are unbounded", "anchors": ["reqif/models/reqif_spec_hierarchy.py:add_child", "reqif/parsers/spec_hierarchy_parser.py:unparse"]}
{"id": "C10", "title": "Conversion walk hands each node its enclosing section", "statement": "iterate_specification_hierarchy_for_conversion calls node_lambda once per hierarchy node in pre-order, and, when sections are created so that a section node's hierarchy ancestors are sections too and section levels equal hierarchy levels, the section passed is the one created for the node's parent (the root for top nodes). Without that discipline it can pass the wrong section or fail with an exception.", "quantifier": "every tree, every stateful node_lambda", "why_tests_cant": "interplay of stack popping with arbitrary trees and callbacks", "anchors": ["reqif/reqif_bundle.py:iterate_specification_hierarchy_for_conversion"]}
{"id": "C11", "title": "Spec object lookup is faithful", "statement": "After parsing, get_spec_object_by_ref(r) returns the last SPEC-OBJECT in document order whose IDENTIFIER is r, raises KeyError if there is none, and spec_object_exists(r) is true exactly if there is one; the same holds for data types and spec types.", "quantifier": "every document and every reference", "why_tests_cant": "duplicates and ordering across unbounded lists", "anchors": ["reqif/object_lookup.py:ReqIFObjectLookup", "reqif/parser.py:_parse_reqif_content"]}
{"id": "C12", "title": "Relation parents lookup is faithful and stable", "statement": "For a parsed document with REQ-IF-CONTENT, get_spec_object_parents(r) returns the TARGETs of exactly the parsed relations whose SOURCE is r, in document order, the empty list if there are none, and the answers do not depend on which queries were made before.", "quantifier": "every document, every sequence of queries", "why_tests_cant": "the lookup is a mutating defaultdict: history dependence", "anchors": ["reqif/object_lookup.py:get_spec_object_parents", "reqif/parser.py:_parse_reqif_content"]}
{"id": "C13", "title": "Spec object type lookup returns the first match", "statement": "get_spec_object_type_by_ref(r) returns the first SPEC-OBJECT-TYPE with identifier r and None if there is none or content is missing; with unique identifiers it agrees with lookup.get_spec_type_by_ref; with duplicates they can disagree.", "quantifier": "every bundle and reference", "why_tests_cant": "duplicate identifiers and mixed kinds of types", "anchors": ["reqif/reqif_bundle.py:get_spec_object_type_by_ref", "reqif/object_lookup.py:get_spec_type_by_ref"]}
{"id": "C14", "title": "Attribute maps agree with attribute lists", "statement": "For every constructed spec object, attribute_map[d] is the last attribute whose definition_ref is d and a key exists exactly for the definition_refs present; likewise ReqIFSpecObjectType.attribute_map, enumeration values_map, and SPECIFICATION-TYPE spec_attribute_map.", "quantifier": "every list of attributes", "why_tests_cant": "lists with duplicates of any length", "anchors": ["reqif/models/reqif_spec_object.py:ReqIFSpecObject", "reqif/models/reqif_spec_object_type.py:ReqIFSpecObjectType", "reqif/models/reqif_data_type.py:ReqIFDataTypeDefinitionEnumeration"]}
{"id": "C15", "title": "Recoverable schema errors are isolated", "statement": "Parsing succeeds past SPEC-RELATIONs that lack SOURCE or TARGET: bundle.exceptions lists exactly those relations in document order, spec_relations contains exactly the others in document order, and the rest of the bundle is as if the faulty relations were absent. 'The rest of the bundle' is that of the document tree without those elements; removing them from the text can change XHTML values elsewhere, since an unused namespace declaration is dropped. A processing instruction inside a faulty relation makes the whole parse fail with ValueError.", "quantifier": "every document", "why_tests_cant": "any number and position of faulty relations", "anchors": ["reqif/parser.py:_parse_reqif_content", "reqif/parsers/spec_relation_parser.py:parse", "reqif/models/error_handling.py:ReqIFMissingTagException"]}
{"id": "C16", "title": "No element of a section is dropped or reordered", "statement": "If parsing succeeds, each section list of the bundle is the in-order image of that section's children: every non-comment child yields exactly one object with the child's identifier (relations: except those reported in exceptions).", "quantifier": "every document that parses", "why_tests_cant": "any number of elements, comments in any position", "anchors": ["reqif/parser.py:_parse_reqif_content"]}
{"id": "C17", "title": "Unsupported elements are rejected, not skipped", "statement": "A child of DATATYPES, SPEC-TYPES, SPEC-OBJECTS, SPECIFICATIONS, SPEC-RELATIONS or SPEC-RELATION-GROUPS (or of an attribute VALUES list) with a tag the library does not handle makes parsing raise; comments are tolerated only in SPEC-TYPES, SPEC-OBJECTS and VALUES. Two gaps: in SPEC-OBJECTS (and SPECIFICATIONS) an element whose tag merely contains SPEC-OBJECT (SPECIFICATION) is accepted, and in the VALUES of a relation everything after the first child is ignored.", "quantifier": "every document", "why_tests_cant": "every tag and position", "anchors": ["reqif/parser.py:_parse_reqif_content", "reqif/parsers/*"]}
{"id": "C18", "title": "Unreadable input is reported as ReqIFXMLParsingError", "statement": "parse_from_string raises ReqIFXMLParsingError for the empty string, for every text that is not well-formed XML and for every well-formed text whose root is not REQ-IF (in the default namespace). It is raised in no other case. One gap: a wrong root in a default namespace with a processing instruction inside gives TypeError.", "quantifier": "every string", "why_tests_cant": "malformed input space is infinite", "anchors": ["reqif/parser.py:parse_from_string", "reqif/parser.py:_parse_reqif"]}
{"id": "C19", "title": "Parse progress calls are exact", "statement": "On success the callback receives, for each present section in the order DATATYPES, SPEC-TYPES, SPECIFICATIONS, SPEC-RELATIONS, SPEC-OBJECTS, SPEC-RELATION-GROUPS, the calls (section,1,n)...(section,n,n) where n counts the section's direct children; on failure the calls made are a prefix of that sequence.", "quantifier": "every document and callback", "why_tests_cant": "any number of sections and items", "anchors": ["reqif/progress.py:track_progress", "reqif/parser.py:_parse_reqif_content"]}
{"id": "C20", "title": "Progress callbacks do not influence results", "statement": "parse/unparse with any non-raising callback return the same bundle/text or raise the same exception as without callback; a raising callback's exception propagates from the call at which it was raised and no further call is made.", "quantifier": "every input and every (stateful) callback", "why_tests_cant": "quantifies over all callbacks", "anchors": ["reqif/progress.py:track_progress", "reqif/parser.py", "reqif/unparser.py"]}
{"id": "C21", "title": "Unparse progress calls are exact", "statement": "unparse with a callback reports, for each present section in the order DATATYPES, SPEC-TYPES, SPEC-OBJECTS, SPEC-RELATIONS, SPECIFICATIONS, SPEC-RELATION-GROUPS, exactly (section,k,n) for k=1..n.", "quantifier": "every bundle", "why_tests_cant": "any number of items", "anchors": ["reqif/unparser.py:unparse", "reqif/progress.py:track_progress"]}
{"id": "C22", "title": "Header round trip", "statement": "A header with a non-empty identifier and text fields free of markup-breaking characters is written and read back equal (empty strings come back as absent); an identifier that is missing or empty makes unparse raise NotImplementedError. Without the condition on the texts this fails: the comment is written unescaped; even the escaped title is not XML if it contains ']]>'; an empty REPOSITORY-ID comes back as 'empty tag' and is then written differently.", "quantifier": "every header", "why_tests_cant": "eight independent optional fields with arbitrary text", "anchors": ["reqif/parsers/header_parser.py"]}
{"id": "C23", "title": "Data type round trip", "statement": "Each data type definition (STRING, BOOLEAN, INTEGER, REAL, ENUMERATION, DATE, XHTML) whose unescaped fields contain no markup-breaking characters is written and read back equal, with the documented exceptions (empty LAST-CHANGE dropped; REAL always comes back self-closed). An INTEGER's LONG-NAME is written unescaped, so an ampersand in it breaks the document, and a self-closed ENUMERATION with values is written as two elements.", "quantifier": "every data type definition", "why_tests_cant": "arbitrary strings, enumerations of any length, any integer accuracy", "anchors": ["reqif/parsers/data_type_parser.py"]}
{"id": "C24", "title": "Attribute definition and spec type round trip", "statement": "Each SPEC-OBJECT-TYPE, SPEC-RELATION-TYPE, SPECIFICATION-TYPE and RELATION-GROUP-TYPE with any list of attribute definitions is written and read back equal under the same printability condition. Read back, an empty LAST-CHANGE is absent, the definition reference is kept with BOOLEAN, ENUMERATION and XHTML default values only, a self-closed flag is dropped when there are attribute definitions, and a self-closed type with an empty list of definitions has none. MULTI-VALUED is only written for ENUMERATION.", "quantifier": "every spec type with any number of attribute definitions", "why_tests_cant": "combinations of kinds, defaults and flags", "anchors": ["reqif/parsers/attribute_definition_parser.py", "reqif/parsers/spec_types/*.py"]}
{"id": "C25", "title": "Attribute value and spec object round trip", "statement": "Each SPEC-OBJECT with any list of STRING/INTEGER/REAL/BOOLEAN/DATE/ENUMERATION (and namespaced XHTML) values is written and read back equal under the printability condition. Read back, an empty LAST-CHANGE is absent and XHTML values have their stripped form. LONG-NAME is written unescaped, so an ampersand in it breaks the document.", "quantifier": "every spec object", "why_tests_cant": "any number of attributes and arbitrary strings", "anchors": ["reqif/parsers/attribute_value_parser.py", "reqif/parsers/spec_object_parser.py"]}
{"id": "C26", "title": "Spec relation round trip", "statement": "Each SPEC-RELATION is written and read back equal under the printability condition (one attribute value at most, of type STRING, XHTML or INTEGER).", "quantifier": "every spec relation", "why_tests_cant": "arbitrary strings and child orders", "anchors": ["reqif/parsers/spec_relation_parser.py"]}
{"id": "C27", "title": "Specification and hierarchy round trip", "statement": "Each SPECIFICATION with a hierarchy of any shape and depth is written and read back equal (including OBJECT/CHILDREN order, self-closed CHILDREN and levels) under the printability condition. Empty LONG-NAMEs and LAST-CHANGEs of hierarchy nodes come back as absent.", "quantifier": "every hierarchy tree", "why_tests_cant": "recursion depth unbounded", "anchors": ["reqif/parsers/specification_parser.py", "reqif/parsers/spec_hierarchy_parser.py"]}
{"id": "C28", "title": "Relation group round trip", "statement": "Each RELATION-GROUP is written and read back equal under the printability condition. An empty LONG-NAME comes back as absent.", "quantifier": "every relation group", "why_tests_cant": "any number of relation refs", "anchors": ["reqif/parsers/relation_group_parser.py"]}
{"id": "C29", "title": "Whole document round trip", "statement": "For every printable bundle, parse_from_string(unparse(b)) succeeds and yields a bundle equal to b in every field visible through the API, with lookups rebuilt accordingly and no exceptions. 'Equal' is up to the normal forms of C22-C28 and the XML nodes stored in the objects.", "quantifier": "every bundle", "why_tests_cant": "the product of all of the above", "anchors": ["reqif/parser.py:parse_from_string", "reqif/unparser.py:unparse"]}
{"id": "C30", "title": "Passthrough is idempotent", "statement": "Text produced by unparse from a printable bundle is a fixpoint: parsing it and unparsing again reproduces it byte for byte.", "quantifier": "every printable bundle", "why_tests_cant": "README promise 'the output is the same as the input' over all documents", "anchors": ["reqif/commands/passthrough/passthrough.py", "reqif/unparser.py", "reqif/parser.py"]}
{"id": "C31", "title": "Unparse output is well-formed XML", "statement": "For every printable bundle the text produced by unparse is accepted by an XML parser. Without printability it can be malformed: several text fields (e.g. SPEC-OBJECT LONG-NAME, header COMMENT, INTEGER LONG-NAME) are written without escaping, so a parsed well-formed document containing &amp; there is written back malformed. A title containing ']]&gt;' is written back malformed as well, since only its ampersands are escaped.", "quantifier": "every bundle / every document", "why_tests_cant": "arbitrary text in arbitrary fields", "anchors": ["reqif/unparser.py", "reqif/parsers/*"]}
{"id": "C32", "title": "Root tag and namespaces are retained", "statement": "parse keeps the REQ-IF opening tag (namespace declarations and attributes in order) and unparse reproduces it; bundles built without a tag dump print one xmlns component per non-None field, and fail with AssertionError when there is none. An empty REQ-IF element loses its opening tag: only its default namespace is kept. A namespace name is written without escaping: one that contains an ampersand makes the output unreadable.", "quantifier": "every namespace info / root tag", "why_tests_cant": "any set of namespaces and attributes", "anchors": ["reqif/parser.py:_parse_reqif", "reqif/unparser.py:unparse_namespace_info"]}
{"id": "C33", "title": "Validation reports exactly the dangling references", "statement": "The semantic warnings about references are, in order, one per relation end (SOURCE before TARGET) and then one per hierarchy node in pre-order whose referenced SPEC-OBJECT does not exist in the document, and nothing else.", "quantifier": "every parsed document", "why_tests_cant": "any number of relations and hierarchy nodes", "anchors": ["reqif/commands/validate/validate.py"]}
{"id": "C34", "title": "Validation exit code", "statement": "validate exits with 0 exactly if the input file exists and there were no XML errors, no schema errors and no semantic warnings in the file it reads; a missing XML declaration or a declared encoding other than UTF-8 each give one warning. The file it reads is the given one if the path is absolute, otherwise the working directory and the path without its empty and '.' components and with every '..' cancelling the component before it; this path is unique. Three gaps: for an empty REQ-IF element neither warning is given; a processing instruction inside a node with a dangling reference makes validate crash with ValueError instead of reporting; and with symbolic links the file whose existence is checked need not be the one validated, so that a faulty file can be reported as valid. For every command line that asks for validate, this exit code is the exit code of the process (0 or 1, or the process ends with an exception), no file is changed, and the output is either that there is no such input file or every error in order, the three counts, and the note about the schema option if it was not given.", "quantifier": "every document, path, working directory and file system", "why_tests_cant": "all combinations of error classes", "anchors": ["reqif/commands/validate/validate.py:execute", "reqif/commands/validate/validate.py:_validate"]}
{"id": "C35", "title": "Validation restores the working directory", "statement": "Whatever the schema validator does (success, validation error, any other exception), after validate returns or raises the process working directory is what it was before. The one exception is a working directory that cannot be entered again.", "quantifier": "every outcome of the external schema library", "why_tests_cant": "failure points of an external library", "anchors": ["reqif/commands/validate/validate.py:_validate"]}
{"id": "C36", "title": "ReqIFZ members are partitioned by extension", "statement": "ReqIFZParser.parse puts each archive member whose extension is exactly .reqif or .xml into reqif_bundles and every other member, with unchanged bytes, into attachments, in archive order; progress is reported once per member (name,k,total).", "quantifier": "every archive", "why_tests_cant": "any number and naming of members", "anchors": ["reqif/parser.py:ReqIFZParser.parse"]}
{"id": "C37", "title": "ReqIFZ failures are wrapped", "statement": "Any failure while reading a member, decoding it, parsing it or in the callback surfaces as ReqIFZParsingError and nothing else.", "quantifier": "every archive and callback", "why_tests_cant": "every failure point", "anchors": ["reqif/parser.py:ReqIFZParser.parse"]}
{"id": "C38", "title": "ReqIFZ archive round trip", "statement": "Writing a ReqIFZ bundle and reading it back yields the same member names, attachment bytes and equal bundles for printable bundles whose names carry the right extension. A bundle stored under another extension comes back as an attachment.", "quantifier": "every ReqIFZ bundle", "why_tests_cant": "any number of members", "anchors": ["reqif/unparser.py:ReqIFZUnparser.unparse", "reqif/parser.py:ReqIFZParser.parse"]}
{"id": "C39", "title": "Anonymisation replaces every targeted text", "statement": "After anonymize, every header COMMENT and TITLE, every SPECIFICATION LONG-NAME, every STRING value and every XHTML THE-VALUE in the document's namespace holds the digest of its former content. Text of a header element that follows a child or comment in it is not replaced. The command fails, without output, for an empty COMMENT or TITLE, for a document without default namespace and for an XML comment inside an XHTML value.", "quantifier": "every document", "why_tests_cant": "any number and nesting of elements", "anchors": ["reqif/commands/anonymize/anonymize.py"]}
{"id": "C40", "title": "Anonymisation changes nothing else", "statement": "anonymize leaves element structure, tags, identifiers, references and all non-targeted attributes and texts unchanged, and maps equal texts to equal replacements. (SPEC-OBJECT LONG-NAME/DESC are not targeted and thus leak.)", "quantifier": "every document", "why_tests_cant": "frame condition over whole trees", "anchors": ["reqif/commands/anonymize/anonymize.py"]}
{"id": "C41", "title": "Commands touch only the output file, and only on success", "statement": "passthrough, anonymize, dump and format never modify any file but output_file (validate and version modify none), and leave it untouched when the input is missing, the output directory is missing, or parsing/unparsing raises; after success it holds exactly the new content, computed from the input as it was. Wherever the process stops, output_file holds its old content or a beginning of the new content; the write is not atomic: a crash between truncation and write leaves an empty output file. If only the output file cannot be opened the command fails with OSError and nothing has changed; a .reqif file that cannot be decoded, parsed or unparsed makes passthrough fail with that exception and nothing has changed.", "quantifier": "every file system state, failure and crash point", "why_tests_cant": "crash points", "anchors": ["reqif/commands/passthrough/passthrough.py", "reqif/commands/anonymize/anonymize.py", "reqif/commands/dump/dump.py", "reqif/commands/format/format.py"]}
{"id": "C42", "title": "Heading detection of ReqIFSchema", "statement": "is_spec_object_a_heading is decided by the last type named Heading if there is one, otherwise by presence of the last ReqIF.ChapterName attribute definition, otherwise false.", "quantifier": "every bundle and spec object", "why_tests_cant": "any number of types and attributes", "anchors": ["reqif/experimental/reqif_schema.py:ReqIFSchema"]}
{"id": "C43", "title": "Unique field names", "statement": "iterate_unique_field_names yields every long name of the collected attribute definitions exactly once, in order of first appearance.", "quantifier": "every bundle", "why_tests_cant": "duplicates in any position", "anchors": ["reqif/experimental/reqif_schema.py:iterate_unique_field_names"]}
{"id": "C44", "title": "XHTML values are stringified faithfully", "statement": "For THE-VALUE content built from elements of one XHTML namespace prefix, text and attributes without namespace, the stored value string parses back to the same content, and value_stripped_xhtml carries the same elements without prefix. Not every value is stringified faithfully: an attribute with a prefix such as xml:lang is written with its namespace in braces, which is not XML; a comment in a value makes the parser raise an error that is not its own when a namespace is in scope; an empty object element with a prefix is self-closed, although without a prefix it keeps its closing tag.", "quantifier": "every XHTML forest", "why_tests_cant": "unbounded nesting and text", "anchors": ["reqif/helpers/lxml.py:lxml_stringify_namespaced_children", "reqif/parsers/attribute_value_parser.py:parse_xhtml_attribute_value"]}
{"id": "C45", "title": "Un-namespaced XHTML fallback duplicates tails", "statement": "lxml_stringify_children returns text, children and tails each exactly once. This is false of the code: every child's tail is emitted twice (once escaped, once raw) and leading text is not escaped.", "quantifier": "every forest", "why_tests_cant": "needs mixed content", "anchors": ["reqif/helpers/lxml.py:lxml_stringify_children"]}
{"id": "C46", "title": "String representations are finite and non-recursive", "statement": "auto_str of an object mentions list and dict fields only by size and other objects only by class name, so it terminates and has the same output whatever the nested objects contain. Texts are shown unescaped, so different objects can have the same string.", "quantifier": "every object graph, cyclic included", "why_tests_cant": "cyclic graphs", "anchors": ["reqif/helpers/debug.py:auto_str"]}
{"id": "C47", "title": "CLI dispatch", "statement": "Each accepted command line runs exactly the corresponding command with the given paths and flag, and no other; one that asks for help (-h, --help or an abbreviation, of the program or of a command) prints it, changes nothing and exits with status 0; every other command line exits with status 2 and changes nothing. Paths that start with a dash can be given after --. main rejects any other command name.", "quantifier": "every argument vector, with options, abbreviations of options and --", "why_tests_cant": "all argument combinations", "anchors": ["reqif/cli/main.py:main", "reqif/cli/cli_arg_parser.py"]}
{"id": "C48", "title": "The dump page shows the whole document in order", "statement": "The HTML page written by dump shows exactly the header's title and creation time, every data type and spec type identifier, and for each specification one table per hierarchy node in document order with the SPEC-OBJECT it refers to and all its values in order. It fails only if one of the lists is absent (TypeError) or a node's reference dangles (KeyError). Values are not escaped.", "quantifier": "every document that parses", "why_tests_cant": "all hierarchy shapes and object lists; failure characterisation", "anchors": ["reqif/commands/dump/dump.py:DumpCommand.execute", "reqif/commands/dump/templates/index.jinja.html"]}
{"id": "C49", "title": "A second passthrough pass changes nothing", "statement": "For every document that is accepted and whose texts survive being written without escaping, the text written by unparse is accepted again, is read back as the same bundle (references that were absent now read 'None'), and writing that bundle reproduces the text byte for byte; so passthrough applied to its own output is the identity. Both restrictions are necessary: a LONG-NAME with an ampersand makes the output unreadable, and a document with only unknown elements changes twice.", "quantifier": "every accepted document text, every parsed bundle shape, every hierarchy depth", "why_tests_cant": "the code's own passthrough tests compare a fixed set of already-canonical samples; the claim is about all documents, including non-canonical ones", "anchors": ["reqif/commands/passthrough/passthrough.py:PassthroughCommand", "reqif/unparser.py:ReqIFUnparser.unparse", "reqif/parser.py:ReqIFParser.parse"]}
{"id": "C50", "title": "Which accepted documents can be written", "statement": "For a document that was accepted by the parser, unparse succeeds exactly when the bundle meets a short list of presence conditions (required identifiers, children recorded in a recognised order, definitions of default values); in every other case it raises. The same conditions are stated on the XML tree: a non-empty header IDENTIFIER, only DEFAULT-VALUE and TYPE in attribute definitions and a definition reference in boolean, enumeration and XHTML default values, VALUES in every object, only known children in complete relations.", "quantifier": "every accepted document", "why_tests_cant": "an if-and-only-if over all documents, including the exceptional ones", "anchors": ["reqif/unparser.py:ReqIFUnparser.unparse", "reqif/parsers/*.py:unparse"]}
{"id": "C51", "title": "Line ends do not matter", "statement": "Two texts that differ only in how their line ends are written (LF, CR LF or CR) parse to the same bundle or the same exception with the same progress reports; parsing a file gives the same as parsing its decoded text although the file is opened in text mode; passthrough writes the same bytes for both.", "quantifier": "every pair of texts related by replacing line ends at any positions", "why_tests_cant": "arbitrary mixtures of line ends at arbitrary positions (attribute values, text, markup, comments)", "anchors": ["reqif/parser.py:ReqIFParser.parse", "reqif/parser.py:ReqIFParser.parse_from_string", "reqif/commands/passthrough/passthrough.py"]}
{"id": "C52", "title": "Which documents are accepted", "statement": "A text is parsed successfully exactly when it is well-formed XML with a REQ-IF root (without processing instructions if a default namespace is declared), its header has an identifier, and every data type, spec type, attribute definition, spec object, attribute value, relation, specification, hierarchy and relation group in it has the parts it needs (tag, identifier, references, values); each element is judged on its own, so removing, repeating or reordering items inside the sections of an accepted document keeps it accepted. Comments are tolerated only between spec types, spec objects and attribute values, and in markup without namespace prefixes.", "quantifier": "every text", "why_tests_cant": "an if-and-only-if over all texts; tests can only sample accepted and rejected documents", "anchors": ["reqif/parser.py:ReqIFParser.parse_from_string", "reqif/parser.py:_parse_reqif", "reqif/parser.py:_parse_reqif_content", "reqif/parsers/*.py:parse"]}
{"id": "C53", "title": "Edits are local", "statement": "Replacing, inserting or removing consecutive items of one section of a bundle (data types, spec types, spec objects, relations, specifications, relation groups), or its header, changes the text written by unparse only in the place of these items; it fails only if an item itself cannot be written, and with that item's exception. The lookup and the recorded errors have no influence on the text. (Conversely the lookup does not follow edits: a new object is written but not found.)", "quantifier": "every bundle that can be written, every place in a section, every list of items put there", "why_tests_cant": "any bundle, any position, any number of items", "anchors": ["reqif/unparser.py:ReqIFUnparser.unparse", "reqif/object_lookup.py:ReqIFObjectLookup"]}
{"id": "C54", "title": "Layout does not matter", "statement": "Two documents that differ only in their layout - white space (or other text) between the child elements of elements that only hold elements, the order of attributes, the text of comments, the order of sections and of the parts of headers, data types, spec types and relation groups - are read alike: parsing reports the same progress, fails on both with the same exception or yields bundles equal in everything but the XML nodes stored in them, and these bundles are written as the same text. The layout that does matter (white space inside references, white-space-only elements versus self-closed ones, the order of children of spec objects, specifications and hierarchies) is exhibited.", "quantifier": "every pair of texts whose XML trees differ only in layout, every progress callback", "why_tests_cant": "arbitrary documents, arbitrary reformatting at every place of the tree at once", "anchors": ["reqif/parser.py:ReqIFParser.parse_from_string", "reqif/parsers/*.py:parse", "reqif/unparser.py:ReqIFUnparser.unparse"]}
{"id": "C55", "title": "What is read is XML", "statement": "The texts the reader takes are exactly the documents of the XML 1.0 grammar (elements, attributes, character data, references, CDATA sections, comments, processing instructions, the XML declaration; without document type declarations), after removal of a byte order mark and with every line end counted as LF; the declaration and the tree found are those the grammar assigns to the text, and the grammar assigns only one. The names in the tree are resolved exactly as the recommendation on namespaces says (scopes, default namespace, prefixes, declarations that are allowed, attributes that are the same after resolution); a text that is no such document, or whose names have no meaning, raises ReqIFXMLParsingError.", "quantifier": "every text, every declaration, every tree", "why_tests_cant": "an if-and-only-if between a grammar and an automaton over all texts", "anchors": ["reqif/parser.py:ReqIFParser.parse_from_string", "reqif/helpers/lxml.py"]}
{"id": "C56", "title": "Which exception a rejected document raises", "statement": "A text that is not a well-formed document with a REQ-IF root raises ReqIFXMLParsingError. Otherwise the requirements of the header and of the items of the six sections are looked at in reading order (data types, types, specifications, relations, objects, groups; within an item in a fixed order), and the exception raised is that of the first requirement that is not met; nothing is raised if all are met. The same holds for the element parsers used on their own.", "quantifier": "every text, every exception; every node for the element parsers", "why_tests_cant": "documents with arbitrarily many defects at arbitrary places; the claim is an if-and-only-if", "anchors": ["reqif/parser.py:ReqIFParser.parse_from_string", "reqif/parsers/data_type_parser.py", "reqif/parsers/attribute_definition_parser.py", "reqif/parsers/attribute_value_parser.py", "reqif/parsers/spec_relation_parser.py", "reqif/parsers/spec_hierarchy_parser.py"]}
{"id": "C57", "title": "The dump page is an HTML document", "statement": "If the texts of the document that are shown are themselves well-formed content, the page written by the dump command is a document type declaration followed by a single well-formed element, and that element is, up to white space, the tree with the header table, one table per data type and spec type, and per specification its name and one table per object with type, identifier and one row per value. Texts with a stray '<' break the page, since nothing is escaped (shown by a counterexample).", "quantifier": "every parsed document that can be dumped, every assignment of trees to the shown texts", "why_tests_cant": "any number of tables and rows with arbitrary texts", "anchors": ["reqif/commands/dump/dump.py", "reqif/commands/dump/templates/index.jinja.html"]}
{"id": "C58", "title": "Which bundles can be written, and which exception the others raise", "statement": "Writing a bundle, whether it was read from a file or put together with the API, raises exactly the exception of the first requirement it does not meet, in writing order: some namespace information (AssertionError); a non-empty header identifier (NotImplementedError); attribute definitions laid out with DEFAULT-VALUE and TYPE only (NotImplementedError) and enumeration, XHTML and boolean defaults that name their definition (AssertionError); objects laid out with VALUES and TYPE (AssertionError); enumeration values laid out with VALUES and DEFINITION (ValueError) and values of the right Python type (AssertionError); relations laid out with TYPE, SOURCE, TARGET and VALUES only (NotImplementedError); hierarchy levels from 1 on (AssertionError). If all are met it succeeds. The same holds for each element writer on its own.", "quantifier": "every bundle the API can build, every exception", "why_tests_cant": "arbitrarily many elements with arbitrary combinations of defects; the claim is an if-and-only-if", "anchors": ["reqif/unparser.py:ReqIFUnparser.unparse", "reqif/parsers/header_parser.py:unparse", "reqif/parsers/attribute_definition_parser.py:unparse_xhtml_attribute_definition", "reqif/parsers/attribute_value_parser.py:unparse_attribute_values", "reqif/parsers/spec_object_parser.py:unparse", "reqif/parsers/spec_relation_parser.py:unparse", "reqif/parsers/spec_hierarchy_parser.py:unparse", "reqif/parsers/specification_parser.py:unparse"]}
{"id": "C59", "title": "The entry points for XHTML attributes agree with the general ones", "statement": "Reading an ATTRIBUTE-DEFINITION-XHTML with its own entry point gives what reading it as part of a type gives, except that it is marked as not multi-valued, which shows as MULTI-VALUED=\"false\" when it is written; other elements are refused. Reading and writing an XHTML attribute value with its own entry points is reading and writing it as part of an object.", "quantifier": "every element, every attribute definition and value", "why_tests_cant": "arbitrary elements and values; equality of two functions", "anchors": ["reqif/parsers/attribute_definition_parser.py:parse_xhtml_attribute_definition", "reqif/parsers/attribute_value_parser.py:parse_xhtml_attribute_value", "reqif/parsers/attribute_value_parser.py:unparse_xhtml_attribute_value"]}
{"id": "C60", "title": "Formatting keeps the document", "statement": "If a readable document has element, attribute and processing-instruction names and namespace prefixes in ASCII and namespace names without tabs, line ends, '&' and '<', then the format command succeeds and its output file is a readable document in ASCII that differs from the input only in white space next to markup, never inside an element that holds text only; names, namespaces, attributes, their order and values, comments and processing instructions before and after the root element are kept (characters outside ASCII in comments and processing instructions become references). For other names the output may be unreadable. An input that is no XML document is refused with XMLSyntaxError and nothing is written.", "quantifier": "every readable document, every file name", "why_tests_cant": "arbitrary documents, depth, characters and white space", "anchors": ["reqif/commands/format/format.py:FormatCommand.execute"]}
{"id": "C61", "title": "Formatting a formatted file changes nothing", "statement": "For documents as in C60 without an xml:space attribute, the formatted document is indented (elements with text are left alone, otherwise each child is on its own line, two blanks per level), the second formatting's output is a fixed point of formatting, and if the input declares an encoding the first output already is one. Without a declared encoding, or with xml:space, the second output may differ from the first.", "quantifier": "every readable document without xml:space", "why_tests_cant": "arbitrary documents; equality of a composition of functions", "anchors": ["reqif/commands/format/format.py:FormatCommand.execute"]}
{"id": "C62", "title": "A formatted file is parsed as the file it was made from", "statement": "For a document as in C60 whose elements stand in the ReqIF structure (other elements may hold text only, except in tool extensions, alternative identifiers, lists of editable attributes, XHTML values and original values, where any elements may stand), parsing the output of the format command makes the same progress report, raises the same error or gives the same bundle, but for the declared encoding, the stored XML nodes and the white space in XHTML values. If XHTML values hold text only, nothing else changes and the two bundles are written as the same text. White space in XHTML values does change: it is added between inline elements, and tabs are lost.", "quantifier": "every such document, every progress callback and its state, every file name", "why_tests_cant": "arbitrary documents, depth, values and white space; relates two runs of the parser", "anchors": ["reqif/commands/format/format.py:FormatCommand.execute", "reqif/parser.py:ReqIFParser.parse", "reqif/parsers/spec_object_parser.py", "reqif/helpers/lxml.py"]}
{"id": "C63", "title": "The output file of anonymize is the anonymized document", "statement": "If the input file is a readable document in UTF-8 whose namespace names hold no '&', the anonymize command writes a readable document in UTF-8 that differs from the anonymized tree (C39, C40) only in white space next to markup: at every place outside of XHTML values stands the same element with the same attributes and namespace declarations, header texts, specification names, STRING values and XHTML values are replaced by digests, and other elements keep their attributes and, if they hold text only, their text. Comments and processing instructions around the root element are kept. If the tree cannot be anonymized, the command fails with that exception. A namespace name with '&' makes the output unreadable.", "quantifier": "every readable input document, every hash function, every file name", "why_tests_cant": "arbitrary documents, places in them, characters and values", "anchors": ["reqif/commands/anonymize/anonymize.py:AnonymizeCommand.execute", "reqif/commands/anonymize/anonymize.py:AnonymizeCommand._anonymize"]}
{"id": "C64", "title": "An anonymised file is parsed to the bundle with its values hidden", "statement": "If a file in UTF-8 is a document in one default namespace and in the ReqIF structure (no processing instructions, SPECIFICATION, REQ-IF-HEADER and attribute values in their places, XHTML content in another namespace) that can be parsed, and the anonymize command ends with exit code 0, then the file it writes can be parsed, with the same progress reports. The new bundle has the same identifiers, types, references, hierarchies, relation ends, dates and parent links as the old one, in the same order; header comment and title, STRING values, XHTML values, their default values, and the long names of specifications are replaced by digests; nothing else differs but the XML declaration and the XML nodes stored in the objects. This holds if a namespace prefix of the root element is used by one of its attributes (as in xsi:schemaLocation) or no attribute definition has an XHTML default value; otherwise the written file may fail to parse with an AssertionError. An element in SPECIFICATIONS whose name only contains SPECIFICATION is parsed as a specification, and its long name is not hidden.", "quantifier": "every such input document, every hash function, every file name, every progress callback", "why_tests_cant": "arbitrary documents and values; the command edits the XML tree, and what the parser makes of the edited, rewritten and re-read tree has to be compared with the original for all of them", "anchors": ["reqif/commands/anonymize/anonymize.py:AnonymizeCommand.execute", "reqif/commands/anonymize/anonymize.py:AnonymizeCommand._anonymize", "reqif/parser.py:ReqIFParser.parse", "reqif/parser.py:ReqIFParser._parse_reqif"]}
{"id": "C65", "title": "passthrough announces what it drops from requirements", "statement": "When passthrough writes its output, it prints for every child of a SPEC-OBJECT other than VALUES and TYPE one line 'warning: Unknown child tag: ...', object by object in document order and for an archive member by member, and prints nothing else; if it fails while reading or writing, the lines printed are the first of these. The announced children are exactly those that leave no trace in the written text of the object. Losses elsewhere (children of other elements, tool extensions, comments between the objects) are not announced: the claim that every loss is announced is refuted.", "quantifier": "every input file or archive, every bundle that is written, whether or not writing succeeds", "why_tests_cant": "the lines depend on unboundedly many objects and children and on where a failure happens", "anchors": ["reqif/parsers/spec_object_parser.py:SpecObjectParser.unparse", "reqif/cli/main.py:main", "reqif/commands/passthrough/passthrough.py:PassthroughCommand.execute", "reqif/unparser.py:ReqIFUnparser.unparse"]}
{"id": "C66", "title": "Which documents can be anonymized", "statement": "anonymize succeeds on a well-formed document exactly if its root element has a default namespace, every TITLE and COMMENT child of a REQ-IF-HEADER (in that namespace) begins with text, and no formatted value (THE-VALUE of an ATTRIBUTE-VALUE-XHTML) contains a comment or a processing instruction. Otherwise it fails, with KeyError, AttributeError and ValueError respectively (looked at in this order), and no file changes. That every document the parser accepts can be anonymized is refuted: an empty header comment is enough to make the command fail.", "quantifier": "every well-formed document, every digest function, every file system", "why_tests_cant": "the targets occur any number of times at any depth, and one fault anywhere decides the outcome of the whole run", "anchors": ["reqif/commands/anonymize/anonymize.py:AnonymizeCommand._anonymize", "reqif/commands/anonymize/anonymize.py:anonymize_string", "reqif/helpers/lxml.py:lxml_stringify_namespaced_children"]}
{"id": "C67", "title": "Passthrough keeps the document", "statement": "If an accepted document contains only texts that survive being written, then the document passthrough (parse followed by unparse) writes for it contains again, element by element and in the same order, what was in it: the header fields; for data types, types, attribute definitions, objects, relations, specifications and relation groups their identifiers and labels; their flags, bounds and accuracy; enumeration values; default values; attribute values, with the elements, attributes and characters of XHTML values; references between elements; and the hierarchy. Permitted differences: an empty attribute may be dropped, an absent reference reads None. Not kept, each with a witness: IS-EDITABLE=\"1\" becomes \"false\"; further default values of an enumeration; further values of a relation; the content of TOOL-EXTENSIONS; ALTERNATIVE-ID elements; relations without SOURCE or TARGET; where no namespace is in scope, escaped text in an XHTML value becomes markup; elements of an XHTML value that are in another namespace move to that of the first prefix.", "quantifier": "every accepted document, of any size, whose texts survive being written; the statement compares the XML trees of input and output only", "why_tests_cant": "tests compare input and output for files that are already in the form the library writes; a user's file has other orders, quoting and whitespace, and one field lost in one kind of element is silent data loss", "anchors": ["reqif/parser.py:ReqIFParser.parse", "reqif/unparser.py:ReqIFUnparser.unparse", "reqif/commands/passthrough/passthrough.py"]}
{"id": "C68", "title": "Files are read and written as UTF-8", "statement": "Parsing a file is parsing the one text whose UTF-8 form its bytes are (RFC 3629: shortest forms only, no surrogates, nothing beyond U+10FFFF); bytes that are the form of no text raise UnicodeDecodeError before anything is reported. The output files of passthrough (of a .reqif file), anonymize and dump hold the UTF-8 form of the unparsed bundle, the anonymized document and the page.", "quantifier": "every byte sequence, every text, every file system and command line", "why_tests_cant": "byte sequences of any length; the errors depend on single bytes at any position", "anchors": ["reqif/parser.py:ReqIFParser.parse", "reqif/parser.py:ReqIFParser.parse_from_string", "reqif/commands/passthrough/passthrough.py:_passthrough", "reqif/commands/anonymize/anonymize.py", "reqif/commands/dump/dump.py"]}
{"id": "C69", "title": "What the parser sees of a document", "statement": "If the root element declares a default namespace, the parser works on the document with namespaces taken off: every element is known by its local name except those of XHTML, which stay in their namespace; attributes, text, comments and order are unchanged; of the declarations only those still needed are left. Otherwise it works on the document as it is. Two documents that look alike in this sense parse to the same header, content, tables, errors and progress reports, or to the same exception: only the record of the root tag and its declarations may differ. Of an element the parser sees the name, the attributes, the children without the text, the first child of a name, and the text in front of the first child.", "quantifier": "every text, every pair of texts whose trees look alike, every element", "why_tests_cant": "trees of any depth and shape, with prefixes declared, redeclared and used anywhere", "anchors": ["reqif/parser.py:ReqIFParser._parse_reqif", "reqif/helpers/lxml.py:lxml_strip_namespace_from_xml"]}
{"id": "C70", "title": "Every text of a parsed bundle can be written", "statement": "Every text field of a bundle returned by the parser (namespace information, header, data types, types, attribute definitions, attribute values, objects, relations, specifications, hierarchies, relation groups) consists of characters that XML allows; in particular it holds no surrogate. Writing a bundle whose texts are such, read or built, gives a text of such characters. Hence the text that passthrough writes can be encoded in UTF-8, a read archive can be written if each of its documents can, the page of dump can be encoded, and no failing command has changed a file. A bundle built by a program with a lone surrogate is written as a text that cannot be encoded.", "quantifier": "all documents, all bundles, all archives, all file systems and requests", "why_tests_cant": "the claim is about every field of every document and every character; tests see only documents with ordinary texts", "anchors": ["reqif/parser.py: ReqIFParser.parse_from_string, ReqIFZParser.parse", "reqif/unparser.py: ReqIFUnparser.unparse, ReqIFZUnparser.unparse", "reqif/commands/passthrough/passthrough.py", "reqif/commands/dump/dump.py"]}
{"id": "C71", "title": "Anonymizing objects in memory hides their texts", "statement": "The helpers that anonymize lists of objects and of specifications replace the value of every STRING and XHTML attribute by a fixed text, and the name of every specification that has one; values of other types, all other fields, the number and the order stay. Doing it again changes nothing. Lists of objects or specifications that differ only in these texts are written alike afterwards. Objects are changed in place: for any selection of the objects of a parsed document, edited before or not, exactly the selected ones are changed, in the list of the document and in what the lookup finds; if all are selected, the document becomes the one with all its objects covered, and documents that differ only in the texts are written alike. Two things do not hold: the copy of an XHTML value without prefixes keeps the original text in memory, and a document that binds XHTML to another prefix than xhtml cannot be read after its objects were anonymized and written.", "quantifier": "all lists of objects and specifications, all pairs of lists that differ only in free texts, all parsed and then edited documents and all selections of their objects", "why_tests_cant": "that nothing of a text is left is a claim about every pair of inputs, and no test calls these helpers", "anchors": ["reqif/commands/anonymize/anonymize.py: AnonymizeCommand._anonymize_spec_objects, _anonymize_specifications, _anonymize_attribute"]}
{"id": "C72", "title": "Documents built by a program are read as asked for", "statement": "If a program builds data types, object types with attribute definitions and objects with values through the create helpers and puts them into a bundle, then unparsing it succeeds and parsing the text gives the same elements in the same order with the identifiers, keys, names, references, flags and values that were asked for and nothing that was not, provided the texts given for fields that are written unescaped contain no markup characters. Without that proviso it does not hold: an identifier with an ampersand gives a text that is not XML. The empty bundle with neither a namespace nor a configuration cannot be written; with one of them it is written and read back exactly. Whatever texts are asked for, also those that give no XML, the text written is exactly the lines of the request: one element per line in the order asked for, indented by its depth, with names, descriptions and string values escaped and everything else as given, provided values of the kinds written as they are are numbers, booleans or dates.", "quantifier": "every list of requested data types, object types and objects; every namespace and configuration of an empty bundle", "why_tests_cant": "any number of elements with arbitrary texts; tests build one small document", "anchors": ["reqif/models/reqif_data_type.py: ReqIFDataTypeDefinitionString.create, ReqIFEnumValue.create, ReqIFDataTypeDefinitionEnumeration.create", "reqif/models/reqif_spec_object_type.py: SpecAttributeDefinition.create, ReqIFSpecObjectType.create", "reqif/models/reqif_spec_object.py: ReqIFSpecObject.create", "reqif/reqif_bundle.py: ReqIFBundle.create_empty", "reqif/unparser.py: ReqIFUnparser.unparse"]}
{"id": "C73", "title": "XHTML made from HTML and HTML made from XHTML", "statement": "Converting HTML text to XHTML with a prefix gives, for whatever elements the HTML parser finds in it, a text that an XML reader reads as the same elements with the prefix reqif-xhtml or xhtml as chosen, with the same attributes, text, order and nesting; only white space before the first element is dropped. It fails, with a ValueError, exactly if the parser finds a comment or a processing instruction. Converting an XHTML element to HTML gives a text that is read as the same element without its prefix: exactly if the element holds text itself, otherwise white space may be put between elements that have no text between them; the text after the element is kept except for white space at its end. One conversion after the other gives the element one started with. What is not kept, with witnesses: white space before the first element, comments, and the absence of white space between adjacent elements.", "quantifier": "every forest of elements and text, every prefix choice, every HTML parser, every text after the element", "why_tests_cant": "trees of any depth with any text and attributes; tests convert three texts", "anchors": ["reqif/helpers/lxml.py: lxml_convert_to_reqif_ns_xhtml_string, lxml_convert_from_reqif_ns_xhtml_string, lxml_stringify_namespaced_children, lxml_strip_namespace_from_xml"]}
{"id": "C74", "title": "Passthrough treats an archive member by member and loses nothing in it", "statement": "passthrough of a .reqifz file succeeds exactly if passthrough would succeed for every ReqIF document in the archive taken as a file of its own. The output archive then holds every member name of the input exactly once: first the documents, then all other files, each in the order in which the names first appear. Every document is what passthrough writes for it on its own, and every other file has exactly its bytes. If the texts of the documents survive being written, the content of every document is kept and passing the output through again reproduces it. If any member fails, no file is touched.", "quantifier": "every archive (any number of members, names occurring several times, any bytes), every file system state, every input and output path", "why_tests_cant": "tests pass a couple of archives with one document each through; that no member is dropped, renamed, duplicated or mixed up holds only if it does for every sequence of members and every content", "anchors": ["reqif/commands/passthrough/passthrough.py: PassthroughCommand._passthrough_reqifz", "reqif/parser.py: ReqIFZParser.parse", "reqif/unparser.py: ReqIFZUnparser.unparse"]}
{"id": "C75", "title": "Validation says the same about a file after format, anonymize or passthrough", "statement": "Validating (without the XSD schema) the file that format or anonymize wrote reports the same errors and the same dangling references in the same order as validating their input, and no warning about the XML declaration; so a file that validates with exit code 0 still does. The same holds for passthrough, where an absent reference now reads None and the errors of the parser are gone together with the relations they are about, provided that no SPEC-OBJECT is called None. That condition is necessary: otherwise passthrough silently turns an empty reference into a valid one. The same from the command line: if the validate process exits with 0 for a file, it exits with 0 for the output of format, and for the output of a successful anonymize or passthrough (absolute paths, without the schema option).", "quantifier": "every file system, every input document in the supported structure (for passthrough: whose texts survive being written), every pair of absolute paths", "why_tests_cant": "a sample document shows nothing about which references the next document leaves dangling; that no finding is gained, lost or reordered has to hold for every document and every hierarchy", "anchors": ["reqif/commands/validate/validate.py: ValidateCommand", "reqif/commands/format/format.py: FormatCommand", "reqif/commands/anonymize/anonymize.py: AnonymizeCommand", "reqif/commands/passthrough/passthrough.py: PassthroughCommand"]}
{"id": "C76", "title": "Objects found by lookup are the objects of the document", "statement": "In a bundle that was parsed and then edited in place any number of times, what the lookup (get_spec_object_by_ref and the like) returns is the very object in the list of the document, and what attribute_map or values_map returns is the very item of that object: assigning to its fields changes that one list entry, the one lookup entry that leads to it, nothing else, and the text written by unparse changes in its place only. Right after parsing, the object found is the last one with the identifier and the item found is the last one with its key. Appending to a list of items or to a section changes that list only. (The lookup and the maps do not follow changed identifiers or appended items.)", "quantifier": "every text that parses, every progress callback, every sequence of assignments and appends, every object and item", "why_tests_cant": "any document, any number of duplicates, any sequence of edits", "anchors": ["reqif/parser.py:ReqIFParser._parse_reqif_content", "reqif/object_lookup.py:ReqIFObjectLookup", "reqif/models/reqif_spec_object.py:ReqIFSpecObject.__init__", "reqif/models/reqif_spec_object_type.py:ReqIFSpecObjectType.__init__", "reqif/models/reqif_data_type.py:ReqIFDataTypeDefinitionEnumeration.__init__"]}
{"id": "C77", "title": "Changing the hierarchy while walking it", "statement": "When the caller changes hierarchy nodes between the items of iterate_specification_hierarchy (or SpecificationIterator), the walk stays depth-first: the specification's children are those at the first next(), a node's children are those at the next() after the one that gave it. Hence children added with add_child to the node just given or to nodes ahead are walked and the walk is the pre-order of the final hierarchy; children added to passed nodes are not walked; an ended walk stays ended; and the walk ends as long as nodes are not made at ever greater levels. (A caller that gives each node a new child walks for ever.)", "quantifier": "every hierarchy, every sequence of changes between the calls of next(), every number of calls", "why_tests_cant": "interleavings of iteration and changes are unbounded", "anchors": ["reqif/reqif_bundle.py:iterate_specification_hierarchy", "reqif/specification_iterator.py:iterate_specification", "reqif/models/reqif_spec_hierarchy.py:add_child"]}
{"id": "C78", "title": "Conventional files survive passthrough", "statement": "Call a file conventional when, looking only at its XML tree: attribute values contain no tab, line break, quote, ampersand or '<' (except, as listed, in attributes the code escapes), element texts that are read contain no ampersand, '<' or ']]>', XHTML values consist of text and elements of one namespace whose prefix is the first visible one, with attributes in no namespace, and string and integer values begin with their DEFINITION. Then everything read from it can be written and read back; passthrough succeeds exactly when the file is accepted (C52) and its tree meets the conditions for writing (VALUES in objects, only known children in definitions and relations, ...); a second pass leaves the output as it is, and the output is the same document. An archive all of whose members can be decompressed and whose documents are such files passes through as well: no name is lost, other files keep their bytes, every document is kept, and a second pass changes nothing.", "quantifier": "every conventional UTF-8 file, of any size, opening tag, prefix and XHTML depth", "why_tests_cant": "a guarantee for all files of a class, in terms of the file alone", "anchors": ["reqif/commands/passthrough/passthrough.py:_passthrough", "reqif/parser.py:ReqIFParser.parse_from_string", "reqif/unparser.py:ReqIFUnparser.unparse", "reqif/commands/passthrough/passthrough.py:_passthrough_reqifz"]}
{"id": "C79", "title": "Formatting first does no harm", "statement": "When a conventional file (C78) that the format command handles without loss (C60, C62: names and markup in ASCII, an ordinary layout, no processing instructions) is formatted, the result is conventional again, is accepted exactly when the original is, and can be written exactly when the original can. So format followed by passthrough exits 0 twice, and the last file holds the document of the first one up to white space, and passes through unchanged again. If the XHTML values have no elements, passthrough gives the same bytes whether or not the file was formatted before; with elements in XHTML values it does not, since they are indented.", "quantifier": "every conventional UTF-8 file that can be formatted, every starting state of the file system", "why_tests_cant": "about the interplay of two commands for every file of a class", "anchors": ["reqif/commands/format/format.py:FormatCommand.execute", "reqif/commands/passthrough/passthrough.py:_passthrough", "reqif/parser.py:ReqIFParser.parse_from_string"]}
{"id": "C80", "title": "Anonymised files can be processed further", "statement": "When a conventional file (C78) in one namespace and with the ReqIF structure is anonymised, and either an attribute of the root element uses a declared prefix or no attribute definition has an XHTML default value, the result is conventional again with the same root tag and is accepted; if the original can be written, so can the anonymised file. So anonymize followed by passthrough exits 0, the last file holds exactly the document that anonymize wrote, it passes through unchanged again, and the objects parsed from the anonymised file are those of the original with only the hidden texts replaced (C64). The comment and title of the header hold text only, and TOOL-EXTENSIONS is not an XHTML element. Without the condition on prefixes the anonymised file may not even be parsed although the original passes through.", "quantifier": "every conventional UTF-8 file with the stated structure, every digest function, every starting state of the file system", "why_tests_cant": "about the interplay of two commands for every file of a class", "anchors": ["reqif/commands/anonymize/anonymize.py:AnonymizeCommand.execute", "reqif/commands/passthrough/passthrough.py:_passthrough", "reqif/parser.py:ReqIFParser.parse_from_string"]}
{"id": "C81", "title": "The dump page of a file that was processed", "statement": "If dump succeeds on a file, it succeeds on the file that passthrough, format or anonymize made of it, and the page says: after passthrough, byte for byte the same page (provided that the texts survive being written, C49, and no ENUMERATION value holds an empty reference); after format, the same page but for white space in the values of XHTML attributes, and byte for byte the same page if there are none; after anonymize, the same data types, spec types, specifications and tables in the same order, with the title, the names of the specifications and the values of STRING and XHTML attributes replaced by digests and all other values unchanged. With an empty reference in an ENUMERATION value the page changes, and a file that cannot be dumped may have a page after passthrough.", "quantifier": "every UTF-8 file of the classes of C49, C62 and C64, every digest function, every way to print lists of references, every state of the file system before each of the commands", "why_tests_cant": "about the interplay of commands for every file of a class; the page depends on every object and on the whole hierarchy", "anchors": ["reqif/commands/dump/dump.py:DumpCommand.execute", "reqif/commands/passthrough/passthrough.py:_passthrough", "reqif/commands/format/format.py:FormatCommand.execute", "reqif/commands/anonymize/anonymize.py:AnonymizeCommand.execute"]}
{"id": "C82", "title": "References on the dump page can be read back", "statement": "For each ENUMERATION value of each object that a node of a specification refers to, the dump page has a row whose text is a Python list of string literals (or None for an empty reference) denoting exactly the references of the value in order. The text is on one line and holds no control characters and no characters that Python does not consider printable, and no other list of references has the same text.", "quantifier": "every accepted file, every notion of printable characters beyond ASCII, every list of references of any length with any characters", "why_tests_cant": "all strings, with quotation marks, backslashes, control and non-ASCII characters in any combination", "anchors": ["reqif/commands/dump/templates/index.jinja.html", "reqif/commands/dump/dump.py:DumpCommand.execute", "reqif/parsers/attribute_value_parser.py:AttributeValueParser.parse_attribute_values"]}
{"id": "C83", "title": "Commands at the same time, and commands that die and are started again", "statement": "Take any number of passthrough, anonymize, dump, format, validate and version runs in which no file is the output of two, or the output of one and the input of one. However they are started, interleaved byte by byte, killed and started again: files that are no output never change; an output file is at any moment as it was before or as some moment of a single undisturbed run leaves it; once a run has reached its end, its output is exactly what a single undisturbed run writes, however often it died before; a run that has an output file, started at any later moment, does what it would have done at the beginning; and every run can still be brought to its end. When all have reached their ends, the files are those that running them one after the other leaves, in whatever order. With a shared output file, or an output that is another's input, this fails.", "quantifier": "every list of runs, every schedule of starts, single-byte writes, deaths and restarts, every initial file system, every digest function and every way to print", "why_tests_cant": "all interleavings and crash points of any number of processes", "anchors": ["reqif/commands/passthrough/passthrough.py:_passthrough", "reqif/commands/anonymize/anonymize.py:AnonymizeCommand.execute", "reqif/commands/dump/dump.py:DumpCommand.execute", "reqif/commands/format/format.py:FormatCommand.execute"]}
{"id": "C84", "title": "Chains of commands", "statement": "If a conventional file (C78) that is accepted and can be written is passed through, and the output is passed through again, and so on any number of times to any files, every command succeeds and every output has the same bytes. If the XHTML values of the file and of that output hold text only and the files can be formatted (C62), format may be run in between in any order and any number of times, also over files written before: every command succeeds, and every output of passthrough still has the same bytes. With elements in XHTML values the file may be formatted any number of times and then passed through any number of times: every command succeeds and the outputs of passthrough are the same. The output of anonymize may be passed through any number of times in the same way (under the conditions of C80). But with elements in XHTML values the order matters: formatting first changes what passthrough writes.", "quantifier": "every such file, every finite sequence of passthrough and format commands each reading the file the one before has written, every choice of output paths that can be written", "why_tests_cant": "sequences of any length in any order over any file; tests run a command once or twice", "anchors": ["reqif/commands/passthrough/passthrough.py: PassthroughCommand.execute", "reqif/commands/format/format.py: FormatCommand.execute", "reqif/parser.py: ReqIFParser.parse", "reqif/unparser.py: ReqIFUnparser.unparse", "reqif/commands/anonymize/anonymize.py: AnonymizeCommand.execute"]}
