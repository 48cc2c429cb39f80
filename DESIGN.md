# Formal model of strictdoc-project/reqif in Coq

## 1. Approach

The library reads and writes: text -> XML tree -> Python objects -> text.  The
model mirrors it function by function as total, computable Gallina functions.

* Python `str` is `list N` (code points).  Exceptions are values (`exn`) in a
  `result` type.  `Optional[str]` is `option str`.  Dicts are association lists
  with Python's insertion and overwrite behaviour.
* The part of lxml/libxml2 that reqif uses is modelled by a character level XML
  reader (a state machine folded over the text, so no fuel), namespace
  resolution, `nsmap`, `cleanup_namespaces`, `text`/`tail`/`find`/`attrib`.
* Progress callbacks are arbitrary, history dependent functions that may raise.
* External effects (file system, zip container, SHA-256, schema validator,
  lxml's serialiser) are explicit state or parameters, so the theorems hold for
  every behaviour of them.
* No theorem bounds a size, a depth or a number of steps.

Where the code does not have a property a user would expect, the property is
split: the largest class of inputs for which it holds is proved, and a theorem
with suffix `_refuted` exhibits a concrete input outside the class (evaluated by
the kernel) for which it fails.

### Files in `rocq/theories`

| kind | files |
|------|-------|
| model, with citations of /repo | `Base Xml Utf8 Lxml LxmlStr Py Models AttrDef DataType Header AttrValue SpecObj Hierarchy SpecTypes Progress Parser Unparser BundleModel Validate Zip Schema Anonymize Dump Commands AutoStr DateTime Paths Serialise Log Argparse AnonymizeObjects AnonymizeShared Create Convert Alias Walk Repr` |
| specifications used in statements | `Spec*.v` |
| lemmas | `*Proofs.v`, `XmlChars ParserErrors Frag RT*.v` |
| property theorems, examples, `Print Assumptions` | `Prop_*.v` |

Theorem names start with the id of the property in `properties.jsonl`.  The
`Example`s beside them show that concrete, non-trivial cases meet the hypotheses.

## 2. Properties: what is modelled and how it is proved

| id | model | proof |
|----|-------|-------|
| C01-C03 | `lxml_escape_for_html`, `reqif_escape`, `html.escape` as chains of `replace`; XML reader | induction on the string; the chain equals a per-character map; the reader run on the image is computed by a fold lemma |
| C04 | template printing, reader, value parser | from C03 and reader lemmas |
| C05 | `re.sub`, `strip` on strings | induction over the text |
| C06 | strftime fields, slicing | padded decimal lemmas |
| C07 | deque loop as small-step `next` | invariant: deque = remaining pre-order frontier |
| C08 | hierarchy parser | induction on the XML tree |
| C09 | `add_child` on an id-indexed store | invariant over operation lists |
| C10 | section stack loop with stateful callback | invariant: stack = sections of the current ancestor path |
| C11-C14 | dict model, lookup sessions | fold invariants (last writer wins), induction over query sequences |
| C15-C17 | section loops of the parser | induction over children lists; simulation between the document with and without faulty relations |
| C18 | `parse_from_string` | case analysis over the reader's outcome, error classification of every parser |
| C19-C21 | progress monad | trace lemmas for the loop combinator, sequencing |
| C22-C28 | each object parser/unparser pair | the written text is the rendering of a tree; generic reader theorem (`Frag.v`); object parser on that tree |
| C29-C32 | whole `parse_from_string` / `unparse`, opening tag | composition of C22-C28 with namespace processing |
| C33-C35 | validate command over a small process state | list reasoning; case analysis over validator outcomes; C34_command_line and C34_command_output carry the verdict through the command line (`Commands.v`) to the exit code and output of the process |
| C36-C38 | archive as list of (name, bytes), UTF-8 codec | induction over members; codec round trip |
| C39-C40 | tree rewriting with abstract digest | induction on trees (pointwise relation on paths) |
| C41 | file system, commands as sequences of effects | case analysis; crash points are prefixes of the effect sequence |
| C42-C43 | `ReqIFSchema` folds | fold invariants |
| C44-C45 | `lxml_stringify_*` | reader theorem on printed forests |
| C46 | `auto_str` over an object heap | the result depends only on field kinds and sizes |
| C47 | argument vectors, options, dispatch | induction over the argument vector; each argument is classified |
| C48 | Jinja template of `dump` as a printing function | the page is parsed against a declarative description of its rows |
| C49 | parse, unparse, parse, unparse | what reading guarantees (`parsed_*`) gives the hypotheses of C29 |
| C50 | parse, unparse | necessary and sufficient conditions for each unparser on parsed objects |
| C51 | reader, `parse` on files | the reader commutes with line-end normalisation |
| C52 | every `parse` function of the parsers | one success lemma per parser (`AcceptProofs.v`) against the predicates in `SpecAccept.v`; hierarchies by induction on the tree |
| C53 | `unparse` on edited bundles | texts with a place in them (`wrap`), compositional over the sections |
| C54 | parsing and writing of documents that differ in layout | relation on XML trees by place (`SpecLayout`), simulation through every parser up to stored nodes, and the text depends on stored nodes only through child tags |
| C55 | the XML reader (`Xml.v`) against the grammar of XML 1.0 (`SpecXml`) | one way: induction on the derivation, the automaton run over the text of each production; other way: an invariant that relates the text read so far to the open elements and the mode, preserved by every step; namespaces (`SpecNamespaces`): namespace names are compared with the URI references of RFC 3986 (`SpecUri`); resolution equals the relation between markup and trees the recommendation describes, by induction on the markup |
| C56 | the requirements of each element, in the order in which the code looks at them, each with its exception (`SpecFailure`) | for each element parser `failure (parser n) = first_unmet (needs n)`, by following the code; sections by the fold lemmas; hierarchies by induction on their height |
| C57 | the page of the dump command as a tree of the XML grammar (`SpecPage`) | the text of each part is rewritten as nested tags and read with the productions of the grammar |
| C58 | the requirements of each element written, in writing order, each with its exception (`SpecWriteFailure`), for arbitrary bundles | for each writer `failure (writer x) = first_unmet (needs x)`, by following the code; hierarchies by induction |
| C59 | the entry points for XHTML attributes | by comparing the two functions branch by branch |
| C60 | formatting keeps the document | `Serialise.v` models lxml's writer; the text written for a tree is read back as that tree with its indentation, by induction on the tree (`SerialiseProofs.v`, `SerialiseDoc.v`); `SpecFormat.v` says which white space may differ |
| C61 | formatting settles, and indents | the second formatting removes and adds the same white space (`FormatProofs.v`) |
| C62 | the format command followed by the parser | the formatted tree is a re-layout of the input tree (`SpaceProofs.v`); the simulation of C54, widened by white space in XHTML values (`LayoutProofs.v`), and what the stringifiers make of white space; refuted for the values themselves |
| C63 | the anonymize command from file to file | the changes keep the tree writable and its names resolvable (`AnonymizeProofs.v`), reading back of written trees (`SerialiseDoc.v`), and C39/C40 along paths |
| C64 | the anonymize command followed by the parser | a relation between the tree and the anonymised tree (`mask`, `HideDoc.v`), a forward simulation of all sub-parsers along it (`HideProofs.v`), then C63 and the simulation of C54 for the re-read tree (`HideOut.v`); two refutations (dropped XHTML prefix, elements that are parsed as specifications) |
| C65 | the warnings logged by the unparser and shown by the tool (`Log.v`), `passthrough` | the children announced for each object, by induction on children and objects along the unparser (`Prop_Log.v`); one refutation (other losses are silent) |
| C66 | the anonymize command on all readable documents | each pass succeeds or fails by what it finds at its targets (`AnonymizeTotal.v`): the outcome of a pass by induction on the tree, the later outcomes do not depend on the earlier passes, and parsed text can always be encoded; one refutation (an empty header comment) |
| C67 | parser, unparser and the passthrough command | the two trees compared directly (`SpecKeep.v`, which mentions no model of the code); input and output tree are each the source of an object (C16), and by C49 these objects agree up to absent references; the content of XHTML values by inverting the text stored for them (`XhtmlInverse.v`: one text is printed for one content only, given that names in a parsed tree are names, `XhtmlScope.v`); eight refutations of what is lost or changed |
| C68 | UTF-8 codec, `parse` on files, output of the commands | the codec computes the relation of SpecUtf8 (RFC 3629), in both directions; commands through C41 |
| C69 | `strip_if_namespaced`, element accessors, `parse_from_string` | induction over the tree against the relation `shown` of SpecShown; the parser is a function of what is shown |
| C70 | parser, unparser, `zip_unparse`, `dump_html`, `perform` | SpecTexts lists every text of a bundle; the texts of the tree are XML characters by induction over `resolve`, hence those of the objects (C16); the writers keep them. For dump: `repr` of a list of such texts is a text of such characters |
| C71 | `AnonymizeObjects.v`: the helpers of anonymize.py that no command calls | the effect by cases of the attribute type; non-interference: SpecObjectTexts says which objects differ only in free texts, and these are written alike after anonymizing. Two refutations: the stripped copy of an XHTML value stays in memory; the fixed prefix `xhtml:` makes documents with another prefix unreadable. In place (`AnonymizeShared.v`, the memory of `Alias.v`): any selection of the objects of a parsed and edited document, by the invariant that no attribute is in two objects |
| C72 | `Create.v`: the `create` helpers; `unparse_string`, `parse_string` | SpecCreate describes a request independently of the helpers; the bundle built is printable (C29), and what is read is compared with the request field by field; SpecCreateText lays a request out as lines of text and `C72_the_text` proves for every request that exactly these lines are written |
| C73 | `Convert.v`: the two XHTML conversion helpers; the HTML parser is a parameter, the writer is `Serialise.put` | for every forest: the text written is derived in the grammar of SpecXml (to HTML) or read by the fragment lemmas (to XHTML); SpecConvert says which white space may change |
| C74 | `Zip.v`, `Commands.v`: archives that are passed through | SpecArchive says what becomes of every member in terms of passthrough of single documents; the dictionaries of the two loops are computed as lists (first occurrences of the names); C49 and C67 are applied to each document; C41 for the command |
| C75 | `Validate.v` applied to the files that the other commands write | SpecVerdict: findings without the XML nodes they carry; the references of a bundle (objects, relation ends, hierarchy nodes in document order) are computed for both bundles and shown equal from the bundle relations of C62, C64 and C49; C33 and C34 turn them into findings and exit codes; Prop_VerdictCommand states it for the processes |
| C76 | `Alias.v`: parsing into a memory of references, and edits in place | the memory parser is shown to simulate the value parser (same results, exceptions and callback calls); an invariant over all edits says that references in a list, in the lookup and in item lists are distinct, so an edit is seen in exactly one list entry and under the keys that lead to it; C53 turns this into the written text |
| C77 | `Walk.v`: both hierarchy generators over a heap, every next() seeing the heap of that moment | the state of the generator (the node it waits at and its deque) is shown to follow a depth-first walk that reads children late (`visits`, `begins` in `SpecWalk.v`), by induction on the calls, for an arbitrary sequence of heaps; programs of constructor and add_child calls are a special case; ending by induction on the distance to the greatest level; an untouched heap gives the walk of C07 |
| C78 | parse, unparse and passthrough, against conditions on the XML tree (`SpecConventional.v`) | each section of a conventional tree is read into objects whose texts survive (`plain_bundle`), using the image theorems of C16; with C49, C52 and C67 this gives success, stability and sameness; writability (C50) is restated on the tree as an equivalence; `ConventionalCheck.v` is a checker proved right, used for the examples; with C74 the same for archives |
| C79 | format and passthrough one after the other | the conditions of `SpecConventional.v` are shown to be insensitive to white space next to markup (`respaced`, C60), element by element; then C52, C50 and C78; for text-only XHTML values the relation of C62 makes the outputs equal |
| C80 | anonymize and passthrough one after the other | the relation between the opened document and the anonymised one (`hid`, C64) keeps each condition of `SpecConventional.v`, because the replacement texts hold no characters that need escaping and no other text changes; C50 and C52 on the tree; then C78; the file that shows the prefix condition to be necessary is computed |
| C81 | passthrough, format or anonymize, then dump | `SpecSamePage.v`: when two pages are similar; one lemma (`agree_shows`) from bundles that agree in what the page shows to similar pages, by C48 and the uniqueness of document order; the agreement from the relations of C49, C62 and C64; similar pages can be encoded alike (`page_ok`); examples and the cases that change are computed (`Prop_SamePageCases.v`) |
| C82 | `Repr.v` (str() of a list, as jinja2 uses it) and `Dump.v` | `SpecRepr.v`: the syntax of Python's string literals and lists as relations; what `py_repr_list` writes is in the relation (induction on the string); literals and items are prefix free (induction on the derivation), so the relation is functional; C48 for the place on the page |
| C83 | `Commands.v`: several runs at the same time | `SpecParallel.v`: events (start, one change, death) and histories, independent jobs; an invariant over histories (`fine`: which part of its changes each job has made, and that its output shows that part or what a dead run left), using that a command looks only at its input and that its first change truncates the output; running in turn by induction on the list, any order by `Permutation_nth_error`; the failures for shared files are computed. The input is read at one moment |
| C84 | `Commands.v`: `perform` for `format` and `passthrough`, one after the other (SpecChain) | induction over the sequence; the invariant is that passthrough would make the same output of the current file (C79) and that the file can be formatted again, which formatting keeps; C49/C78 give that the output of passthrough is a fixed point |

Not expressible in this model: performance, memory behaviour, DEBUG log output, the
messages of libxml2 and of the schema validator.

## 3. Trusted base

* The Coq 8.16.1 kernel (`coqc`; `coqchk` accepts the compiled library too).
* Axioms: none.  `Print Assumptions` stands under every property theorem and
  prints "Closed under the global context".  (A scan of all loaded libraries also
  lists the seven fields of the opaque module `Coq.ssr.ssrunder.Under_rel` of the
  standard library: `Under_rel`, `Under_rel_from_rel`, `Under_relE`, `Over_rel`,
  `over_rel`, `over_rel_done`, `under_rel_done`.  No theorem depends on them.)
* The reading of /repo that produced the model.  Each definition cites its source
  lines.
* The modelled behaviour of external libraries, section 4.
* The statements: the definitions in `Spec*.v` and the model definitions the
  statements mention.

## 4. What is simplified or assumed

### 4.1 XML reading (`Xml.v`, `Utf8.v`, `Lxml.v`)
lxml/libxml2 is not part of reqif.  The model of it is written from the XML 1.0
recommendation and from lxml's documented behaviour.
* A document type declaration is rejected, hence no custom entities.
* XML names, characters, character references, CDATA, comments, processing
  instructions, attribute normalisation and line ends are modelled exactly.
* Declared encodings: UTF-8, US-ASCII and ISO-8859-1; any other one is treated as
  unreadable.
* A processing instruction has no attributes; `casefold` is ASCII (it is only
  compared with "object").
* Namespaces: the rules of libxml2's xmlParseStartTag2 (prefixes declared, attributes
  unique, names with at most one colon, the reserved prefixes `xml` and `xmlns`,
  namespace names that are URI references).  Simplified: hosts that look like IPv4
  addresses are read like host names; a declaration of the prefix `xml` with its own
  namespace is kept like any other declaration.
* libxml2's limits (depth 256, 10 MB text nodes) are not modelled.
* lxml's writer (`Serialise.v`; used by `anonymize` and `format`) is written after
  libxml2's xmlsave.c and lxml's serializer.pxi: escaping, references for
  characters outside the character set, indentation, `doctype=`, xml:space.
  Namespace names are written unescaped, as libxml2 does.  `remove_blank_text`
  treats white space written as a reference or in CDATA like literal white space.

### 4.2 Python
* `int()` is modelled exactly (digits of Unicode 14), but for the limit of 4300 digits.
* `os.path.abspath` is modelled after posixpath (`Paths.v`); it was compared with
  posixpath itself on 600 random paths, which is a test of the model.
* `strftime("%Y")` does not pad the year (glibc).
* Callbacks raise subclasses of `Exception` only (not `KeyboardInterrupt`).
* Objects are values, except in `add_child` (C09), `auto_str` (C46), `Walk.v` (C77)
  and `Alias.v` (C76), which use a heap.  `Alias.v` covers what a parsed bundle
  shares: data types, spec types and spec objects (lists and lookups) and their
  items (lists and maps), and shows that parsing into the heap gives the values
  the rest of the model works with.  A user who puts one object into several
  places by hand is not modelled.

### 4.3 zipfile, hashlib, Jinja, argparse, xmlschema, file system
* zipfile: a written member reads back with the same name and bytes; an archive is
  its list of members, a member may be unreadable.
* SHA-256 is an arbitrary function.
* Jinja runs with its defaults: no autoescaping, no trimming of blocks.
* argparse is modelled after Python 3.11 (`Argparse.v`): words, options and their
  abbreviations, `-h`, `--`, negative numbers.  Left out: the texts,
  and a second `--` among the words after `--` (argparse stores an empty list for it
  unless it directly follows the first).  The model was compared with argparse itself
  on 4500 random argument vectors; this is a test of the model.
* xmlschema: an arbitrary outcome (accepts, rejects, raises).
* Different paths name different files; directories and permissions do not change
  while a command runs.  Written bytes reach the disk one after the other.

### 4.4 Error messages
Exceptions carry their class and, for missing tags, the node and the tag.  The
texts are not modelled, except `get_description` of the validation errors
(without the text that follows the dumped element).

## 5. Coverage of /repo

| source | model |
|--------|-------|
| `parser.py`, `unparser.py` | `Parser.v`, `Unparser.v`, `Zip.v`, `Progress.v` |
| `parsers/*.py`, `parsers/spec_types/*.py` | `Header.v DataType.v AttrDef.v AttrValue.v SpecObj.v SpecTypes.v Hierarchy.v` |
| `models/*.py` | `Models.v`, `Alias.v` (shared references), `Create.v` (`create` helpers), `BundleModel.v` (`add_child`, constructors), `Validate.v` (`error_handling.py`) |
| `helpers/lxml.py`, `helpers/string/*.py` | `Lxml.v`, `LxmlStr.v`, `Convert.v` |
| `helpers/reqif_datetime.py`, `helpers/debug.py` | `DateTime.v`, `AutoStr.v` |
| `object_lookup.py`, `reqif_bundle.py`, `specification_iterator.py` | `BundleModel.v`, `Walk.v` (iteration while the objects change) |
| `experimental/reqif_schema.py` | `Schema.v` |
| `commands/*`, `cli/*` | `Paths.v Validate.v Anonymize.v Serialise.v Dump.v Commands.v`, `Log.v` (warnings), `Argparse.v`, `AnonymizeObjects.v`, `AnonymizeShared.v` |
| `progress.py` | `Progress.v` |

Not modelled: lxml's HTML parser (what it returns is an argument of C73), the convert command's unused configuration, DEBUG log output, the usage texts of argparse, references to specifications that a program keeps beside the
document, the Unicode database behind `str.isprintable` (a parameter of `Repr.v`).  `dump` takes the `repr` of a list as a parameter, so that its theorems hold for any; `Repr.v` models CPython's.

## 6. Validation of the model and of the theorems

* The model was executed (`vm_compute`) on the 44 passthrough samples of the
  project's own integration tests; `unparse (parse s)` reproduces the sample, as
  the tests expect of the code.  This is a test of the model, not a proof.
* `seeded/LOG.jsonl` lists wrong programs: edits of model definitions, made in a
  scratch copy, with the theorems that stopped proving.
