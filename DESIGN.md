# A Rocq model of soapfish

The model lives in `rocq/theories` (logical name `Verif`).  It is a shallow,
executable Gallina transcription of the Python code, one definition per
function, with exceptions as values.  Class declarations (which in Python are
data processed by a metaclass) are deep-embedded as descriptors, so theorems
quantify over *every* user class, service, schema and document.

## Layout

Model (every definition cites the lines of /repo it models and says where it
simplifies):

| file | models |
|---|---|
| `PyBase.v` | exceptions, results, Python `str`/`int` primitives |
| `PyRe.v` | regular expressions: syntax, relational meaning, matcher |
| `PySort.v` | `sorted` with a key |
| `PyPath.v` | `os.path` functions on POSIX paths |
| `PyHttp.v` | `cgi.parse_header`, `parse_qs`, `string.Template`, `str.replace` |
| `Xml.v` | lxml element trees |
| `PyVal.v` | Python values, numeric comparison, the oracle record |
| `XsdDate.v` | xsd.py: calendar, offsets, Date/DateTime/Time |
| `XsdSimple.v` | xsd.py: String, Boolean, Decimal and Integer families, MaxOccurs |
| `XsdMeta.v` | xsd.py: the metaclass, field collection and naming |
| `XsdComplex.v` | xsd.py: Element, Attribute, Ref, Content, ListElement, ComplexType: accept / render / parse |
| `XsdEq.v` | xsd.py: equality, ordering, hashing of objects |
| `XsdHeap.v` | xsd.py: object identity, sharing between instances |
| `XsdSchema.v` | xsd.py: Schema lookup; utils.walk_schema_tree |
| `Soap.v` | soap.py, soap11.py, soap12.py: envelopes, faults, versions |
| `Dispatch.v` | soap_dispatch.py, core.py, middlewares.py, WSGI/Django/Flask adapters |
| `Client.v` | soap.py: Service.get_method, Stub |
| `GenOrder.v`, `GenNames.v` | order of generated code; names and types in it (utils.py) |
| `GenImports.v` | xsd2py.py and wsdl2py.py: following imports, merging WSDL documents |
| `LibClasses.v` | xsdspec.py, wsdl11.py, wsdl12.py as descriptors |
| `Py2Xsd.v`, `Py2Wsdl.v` | py2xsd.py, py2wsdl.py, wsdl.py |
| `Xsd2Py.v` | templates/lib.jinja2 and xsd.jinja2 with the filters of utils.py: the statements printed |
| `PyLoad.v` | what importing a module of these statements does |
| `PyModule.v` | the module of a WSDL document: classes, schemas and services together |
| `PyUrl.v` | `urllib.parse.urlparse`/`urlunparse`; url_template and url_component of utils.py; Stub.__init__ |
| `XsdPrefixes.v` | find_xsd_namespaces of utils.py |
| `Wsdl2Py.v` | templates/wsdl.jinja2 and wsdl2py.py without imports: the statements printed |
| `PyService.v` | what running them does: xsd.Method, soap.Service, subclasses of soap.Stub |
| `PyInterop.v` | the generated services as the dispatcher and the client see them |

Specifications: `Spec*.v` hold the vocabulary of the theorems (what a facet
means, what a rendered element looks like, what a resolved WSDL reference is,
…), written against XML Schema, SOAP and the documentation.  Proofs are in
`Pf*.v`, example classes and documents in `Ex*.v`.  `Prop*.v` hold the property
theorems only: statement, `exact lemma`, `Print Assumptions`, and `Example`s
showing that the hypotheses can be met.

`tools/manifest.py` regenerates MANIFEST.json from the theorem names,
`tools/mutate.py` runs the seeded-bug experiments logged in `seeded/LOG.jsonl`.

## Plan per property

"direct" = case analysis/induction over the model function; "refuted" = the
English property is false of the code: a theorem `..._refuted` proves its
negation (for a whole family where possible) and a `_partial` theorem gives the
strongest true part.

| id | model | proof |
|---|---|---|
| C01 | `str_accept` | direct, against a declarative facet specification |
| C02 | `str_accept` | refuted for all strings; true part = C01 |
| C03 | `PyRe` matcher with `pattern + '$'` concatenation on syntax | refuted (top-level alternation, trailing newline); proved for patterns without top-level alternation, up to one trailing newline |
| C04 | `clean_ws` | induction on strings |
| C05, C06 | `integer_accept`, decimal printing/parsing | induction on digits; range table as spec |
| C07 | `mk_integer` | refuted for overridden facets; proved for the others |
| C08, C09 | `decimal_accept`, exact rational comparison | direct; C09 refuted for all bounded fields |
| C10 | `bool_*` | direct; renderability refuted |
| C11, C12, C13 | date parser/printer, offsets in microseconds | arithmetic (lia) and digit lemmas |
| C14, C15 | `DateTime`, `Time`, iso8601 parser for the shapes of `SpecDate2.v` (any fraction, any zone), oracle for other shapes | as C11; `PropDate2.v`: what texts of these shapes are read as, which are refused, what may be assigned |
| C16 | `maxoccurs_*` | direct |
| C17, C18 | `meta_all`, store of descriptors | sortedness/permutation; invariant over histories; C18 refuted |
| C19, C20 | `setattr`, `tl_append`, op sequences | invariant by induction over histories |
| C21 | generic `render`/`parse` | induction on fuel and value, faithful-embedding lemma |
| C22, C23 | generic `parse` | congruence: parse depends only on the per-field filters of the children |
| C24 | generic `render` | exact characterisation of tags |
| C25-C27, C29, C34 | generic `render`/`parse` | refuted, with true parts |
| C28 | heap model | refuted for group refs; proved otherwise |
| C30, C31, C32, C33 | generic model | direct |
| C35, C36 | graph model | induction with visited-set measure; C35 non-termination refuted |
| C37-C39 | envelope classes as descriptors in the generic model | render/parse lemmas |
| C40-C50 | dispatcher as state/exception/trace monad | direct, over all middlewares/handlers/validators |
| C40, C49 (texts) | `SpecServer`, `PfServer`, `PropServer` | what a query string or content type means is given as a relation of its own (`encodes_query`, `writes_type`); the modelled library functions are shown to read it so. `PfPin` does the same for the checks of headers and the exceptions in `SpecDispatch` |
| C51, C52 | client and dispatcher composed | uses C21 |
| C53 | `soap_version` | direct |
| C54 | `generate_wsdl` | direct |
| C55, C56 | `py2xsd` over the generic model | refuted / direct |
| C57, C58 | list algorithms, sort specification; for modules generated from WSDL documents the objects parsed (PyModule, Wsdl2Py) | permutation proofs; refuted orderings |
| C59, C60 | worklist algorithms | measure on unseen locations; refuted |
| C61 | string functions | refuted, with true part |
| C62, C63 | `XsdEq` | refuted, with true parts |
| C64, C65 | `parse_obj`, `new_inst` | refuted, with true parts |
| C66 | `Dispatch` (WSGI adapter) | direct; refuted for missing lengths |
| C67 | envelopes | refuted |
| C68 | `GenImports` | induction over the worklist |
| C69 | `Py2Xsd` | direct; refuted for the restricted integers |
| C70 | `LibClasses` in the generic model, `Py2Xsd`, `Py2Wsdl` | uses C21 |
| C71 | `Xsd2Py`, `PyLoad`, `XsdMeta` | invariants over the executed class statements; refuted for whole families and by documents. References to attribute groups: `SpecGenCode2`, `PfGenCode10`, `PropGenCode2` |
| C72 | the same, with `XsdSimple` | direct; refuted for numbers |
| C73 | `PyUrl`, `PyHttp` | induction over the address text; refuted by addresses |
| C74 | `Wsdl2Py`, `PyService` | the statements of a document are computed from what it states, then run with an invariant on the names bound; refuted by documents |
| C75 | `PyInterop`, `Dispatch`, `Client` | C74 gives both modules the same Methods, then C51; refuted by two operations with one element |
| C76 | `Py2Wsdl`, `Wsdl2Py`, `PyService` | the objects read back (C70) state the plan of the service, then C74; refuted by services |
| C77 | the same, `Client`, `Dispatch` | the regenerated methods agree on all that a stub looks at, then C51 |
| C78 | `GenOrder`, `Xsd2Py`, `PyLoad` | the printed order by C58, then an invariant on the names bound after each class statement; a rank on classes bounds the instances made; refuted by documents |
| C79 | `Py2Xsd`, `XsdPrefixes`, `Xsd2Py`, `PyLoad` | the object read back (C70) states the plan of the schema, then C78, C71 and C72; refuted by fields |
| C80 | the same, `XsdComplex` | environments that agree on a closed set of classes read, write and build the same, by induction on depth; agreement from C79; refuted by derived classes |
| C81 | `PyModule`, and those of C76 and C79 | the document read back states the plan of its schema and of its service; the statements of both run in one state; refuted by a clash of names |
| C82 | `PyModule`, `Client`, `Soap` | the module as a platform: environments that agree (C80), equal methods (C81), then every step of a call is the same; C51 for the outcome |
| C83 | `PyModule`, `Dispatch`, `Client` | the same for every step of `dispatch`, by induction over the middleware stack |
| C84 | `XsdFiles`, `GenImports`, `Xsd2Py`, `PyLoad` | induction on the depth of the graph with an invariant on the documents written so far: their classes, variables and Schema objects; C78 for each document; refuted for documents that refer in circles or nowhere |
| C85 | `Py2Xsd`, `XsdComplex`, `XsdSimple`, `XsdDate` | `SpecValid` states validity after XML Schema Parts 1 and 2; the generated document is known from C55; induction on the depth of the object, for each field the run of elements it writes; refuted for unbounded lists, missing required elements, several of a choice, exponents, far time zones |
| C86 | `Py2Xsd`, `XsdComplex`, `XsdSimple`, `XsdDate` | the converse of C85: `SpecRead` says what a document says; from each declaration the text or the runs of children it admits, then parsing by induction on the height of the document; refuted for booleans spelled 1, bounds of 0, lengths, fraction digits, enumerated integers and choices |
| C87 | `Wsa`, `Soap`, `Dispatch`, `Client` | `fill_header` as a function from an object and a fresh identifier to what becomes of the object; rendering of the five fields inside the Header of an envelope; C51 for the exchange; the switch `use_wsa` refuted |
| C88 | `Route`, `Dispatch` | a state machine over histories of `route` and its decorators; `SpecRoute` says which binding of a history is the last; invariant by induction on the history from its end; C43 for what the dispatcher calls |
| C89 | `Serve`, `Dispatch`, `Py2Xsd`, `Py2Wsdl`, `XsdSchema` | rewriting locations commutes with the descriptions of `SpecXsd` and `SpecGenWsdl` (induction on documents); the tables of documents come from an invariant of the schema walk; requests are followed with C40 |
| C90 | SpecContract, PfContract, ExContract, PropContract | composition: `new_dispatcher` (C89) makes the validator from the generated document; what the client sends is valid against it (C85), so `callable` of C51 holds; a valid document is read as what it says (C86); answers are valid (C85). `compile` is only assumed to accept what SpecValid calls valid. With SOAP headers (SpecContract2, PfContract2, ExContract2, PropContract2): the blocks of the header are traced through the envelope and its layout; a strict dispatcher refuses them, one that is not strict takes the call |
| C91 | SpecHeaders, PfHeaders, PfHeaders2, PfHeaders3, PfHeaders4, ExHeaders, PropHeaders | the code for a port with header blocks is computed from what the document says (PfHeaders); running it, an invariant over the statements keeps the schemas bound, the base class without fields and the fields of all classes among the named ones (PfHeaders2, PfHeaders3); lookups by `find_own` of C18 (PfHeaders4). The world before is any that a program reaches (XsdMeta) |
| C92 | PfHeaders5, ExHeaders2, PropHeaders2 | C91 gives both modules Methods that differ only in the header classes, then C51 for a dispatcher whose Methods declare them; refuted for the names of the blocks by running the example |
| C93 | `SpecEnvelope`, `SpecEnvelope2`, `PfEnvelope`, `PfEnvelope2`, `PfEnvelope3`, `PropEnvelope`, `PropEnvelope2` | an envelope is any document with the right children by local name (`envelope_of`, `message_of`, `fault_in`); reading it through the modelled classes is computed symbolically, then `reaches_handler` and `stub_call` are followed |
| C94 | Threads, SpecThreads | A step is one read or write of `_type` or `_passed_type`; threads have stacks of calls (`_evaluate_type`, `__new__`). Invariant on memory and stacks over all schedules; a measure on stacks that only a thread's own steps change gives termination. The race on named types is a schedule of nine steps. |
| C95 | Threads, SpecThreads | The counter with its read and its write as separate steps; invariant between counter and numbers; counterexample schedule. |
| C96 | Threads, SpecThreads | Comparison and `list.append` as separate steps; invariant on length plus waiting threads; counterexample for all lists with one free place. |
| C97 | Texts.v, XsdMeta.v / SpecTexts.v, SpecMeta.v | Document.render unfolds to ComplexType.xml of the root; the round trip is C21; histories of parsexml by induction on the list of calls; setting the class attribute is a step on the world of XsdMeta.v, after which the metaclass loop is shown not to collect the field |
| C98 | Texts.v / SpecTexts.v, SpecValid.v | lxml's parser, serialiser and XMLSchema are parameters, the validator constrained by accepts_all or accepts_only; by cases, composed with C21, C85 and C86 |
| C99 | Cli.v / SpecCli.v | a run is the list of all states of the files and the standard output; argparse's way of taking positional arguments between options and the opening of the output are modelled, what the generators return is a parameter; induction on the command line with the argparse state |
| C100 | Prefixes.v, XsdPrefixes.v, GenNames.v / SpecPrefixes.v | nsmap dictionaries as lists without duplicate keys; update by induction on the list, the document by induction from its end; then get_type by cases on the prefix |
| C101 | PyPrint.v, SpecPrint.v, PfPrint.v, PropPrint.v | str() of objects is a recursive function over values with the recursion limit as fuel; induction over the nesting shows that it returns and what is in the text; the text of a SOAPError is split at its separators. Attributes are hidden and texts can be ambiguous: proved as _refuted. |
| C102 | SchemaHist.v, SpecSchemaHist.v, PfSchemaHist.v, PropSchemaHist.v | a history is the list of Schema calls with the schema of each class and the namespace of each Element after them; induction from the last call gives the relation `belongs`; parse_obj, construct and xml_of are shown to depend on the environment only through what the statement allows. Refuted: that a further or a failed Schema call leaves existing objects as they were |
| C103 | XsdTypes.v, PfXsdTypes.v, PropXsdTypes.v | XSDDate's equality reads four attributes of any value (XSDDates, datetimes, dates, times, instances of classes; other objects are taken to have none of them); case analysis |

## Trusted base

* Coq's kernel (8.16.1) and the standard library.  `Print Assumptions` under
  every property theorem prints "Closed under the global context": no axiom is
  used by any of them.  No axiom, parameter, functor or module type is declared
  anywhere.  (Loading the standard library also loads `Coq.ssr.ssrunder`, whose
  `Under_rel` module type a checker may list; nothing depends on it.)
* The transcription from Python to Gallina, reviewed by hand against the cited
  lines; /repo is never executed.
* External behaviour stated in the model, not proved: CPython's `str`, `int`,
  `re`, `datetime`, `sorted`, `os.path`, `cgi.parse_header`, `string.Template`,
  `urllib.parse.parse_qs`, class statements and method resolution along one
  line of bases; lxml's tree API (`Element`, `set`, `get`, `text`, iteration);
  iso8601's parser for canonical texts (its errors are the exception
  `EParseError`); jinja2's control flow.
* Oracles are universally quantified parameters, never axioms.  The record
  `oracle`: `float(str)`, `strftime('%Y')` padding, non-canonical iso8601 texts.
  `platform` and the parameters of the dispatcher: XML Schema validity, parsing
  and printing bytes, network transport, user functions, middlewares and hooks.
  `tostring`/`hash` in the comparison of objects; `urljoin`, `getcwd`, `open` in
  following imports; the contract of `list.sort` as a hypothesis (`list_sort`)
  where the comparison is not an order.  `decls`: what a class declaration says
  that the descriptors leave out (class or instance passed as type, `use`,
  pattern texts).  `md5`: five hexadecimal digits of a hash (`hex5`); `checked`:
  the check of non-ASCII host names in `urlparse`.  `uuid`: what
  `str(uuid.uuid1())` returned.  `runtime`: compiling regular expressions, unusual literals
  and expressions in generated code.  `show` and `compile`: `etree.tostring` and
  `etree.XMLSchema` when a dispatcher is made; `fromstring`, `tostring` and
  `XMLSchema` in `Texts.v` likewise.  In `Cli.v`: which file a path names, which
  files can be opened, `requests.get`, and what the generators return.
  argparse's treatment of positional arguments and `FileType` (Python 3.11) is
  transcribed.

## Simplifications

* Documents are trees, not bytes; characters are code points 0-255.
* Recursion depth and fuel are explicit; running out is an error value that the
  statements exclude or, for Python's own limit, `RecursionError`.
* Fields named like methods of ComplexType are not modelled; the theorems about
  generated code name the ones the generator itself introduces.
* Modules that define a class name twice are outside `PyLoad.v` (explicit error).
* In C73 to C77 the statements for services start from a state in which those for
  the schemas have bound the names Schema_...; C81 joins the two parts.
* Paths are lexical: no symbolic links.
* In `XsdFiles.v` what `open_document` and lxml make of a path is the parameter
  `open` (a parsed document with its prefixes for XML Schema).  A class statement
  that rebinds a Schema variable, or the reverse, is outside it (explicit error).
* `SpecValid.v` covers the part of XML Schema that generated documents use.  What
  it leaves out (other types and facets, XML attributes, xsi:type, exponents, long
  years) it does not accept, so it never calls a document valid that is not.  What
  a pattern means is the parameter `mean`.  C86 speaks only of documents it
  accepts.
* A schema without targetNamespace fails in the model, as lxml refuses the prefix.
* A namespace URI that is empty is not refused as lxml would.
* Date fields refuse instances of classes with fields year, month and day, which
  the code takes for dates.
* `CallStyle` and similar string enumerations are their strings.

## Not modelled

Network access, logging output text, layout and comments of generated files,
the documentation code, abbreviated options on the command line, libxml2's XSD engine (an
oracle), XML serialisation to bytes, `iso8601` on non-canonical texts (an
oracle).  Functions nothing calls (`_get_field_by_name`, `_validate_response`,
`__parse_with_validation`, `get_version_name`), `__repr__` methods other than
`__str__` of objects, lib/attribute_dict.py and testutil.
