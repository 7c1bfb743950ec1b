{
"C01": [
"proved",
"Facet declarations: lengths other than 0, non-empty enumeration, pattern without top-level alternation (see C02, C03 for those)."
],
"C02": [
"partial",
"Refuted: falsy facets are never checked. True part is C01."
],
"C03": [
"partial",
"Refuted for patterns with a top-level alternation (exact characterisation proved); proved for all others up to one final newline."
],
"C04": [
"proved",
""
],
"C05": [
"proved",
""
],
"C06": [
"proved",
""
],
"C07": [
"partial",
"Refuted for maxInclusive/minInclusive overridden by the type and for pattern; proved for all other facets."
],
"C08": [
"proved",
"NaN excluded: it passes every bound (C08_nan_passes_bounds)."
],
"C09": [
"partial",
"Refuted for every bounded field (TypeError); without facets the value is kept as an exact text."
],
"C10": [
"partial",
"Refuted: numbers equal to 0/1 are accepted but cannot be written. Booleans, None and texts fully proved."
],
"C16": [
"proved",
""
],
"C11": [
"partial",
"Refuted for years below 1000 when strftime('%Y') does not pad (glibc); proved for all other dates and all whole-minute offsets."
],
"C12": [
"partial",
"Exact characterisation of the texts that are read, and of the errors. Refuted: an hours-only zone raises TypeError and a huge year raises OverflowError."
],
"C13": [
"partial",
"Refuted for offsets between -24h and -24h+1s, written -24:00; proved for all others."
],
"C14": [
"proved",
""
],
"C15": [
"proved",
""
],
"C19": [
"proved",
""
],
"C20": [
"partial",
"maxOccurs=0 refuted: it blocks appends but is not enforced on output; all other bounds proved."
],
"C22": [
"proved",
"Over all insertions at any depth, for classes without Choice (a Choice class reads the element itself, see C26). Processing instructions are not ignored: see C33."
],
"C23": [
"proved",
"Classes without Choice."
],
"C24": [
"proved",
""
],
"C30": [
"proved",
"ValueError stated for the case that the fields rendered before the missing attribute can be rendered; success is excluded unconditionally."
],
"C32": [
"proved",
"Field-by-field rendering stated for classes without group references; with groups see C24_rendered_shape."
],
"C21": [
"proved",
"Values whose text is empty, '' and optional elements with a non-None default are outside the class of instances (see C34)."
],
"C25": [
"partial",
"Refuted: an attribute is read under its Python name, so a different tagname loses the value. Proved when the names agree."
],
"C26": [
"partial",
"Refuted: a Choice is matched against the element itself, not its children. The inline reading is proved."
],
"C27": [
"partial",
"Refuted: written as a child, read from the parent. What is read is characterised; groups are covered by C21."
],
"C29": [
"partial",
"Refuted for '1' on elements and 'false' on list items; exact reading of xsi:nil proved for both."
],
"C31": [
"partial",
"Reflexivity refuted for instances that were not parsed; the rest proved for every serialiser and hash."
],
"C34": [
"partial",
"Refuted: '' becomes None. Proved for every non-empty string, and for attributes in C25_same_name_partial."
],
"C62": [
"partial",
"Proved for parsed instances; refuted otherwise."
],
"C63": [
"partial",
"Refuted both ways: equality is by the original element, including the text after it."
],
"C33": [
"partial",
"Object or ValueError for documents without processing instructions and classes built from String, Boolean, Integer, Decimal (with numeric bounds), Time and MaxOccurs fields; with Date and DateTime fields also TypeError (C12), OverflowError and iso8601.ParseError, and nothing else. Refuted for processing instructions (TypeError)."
],
"C64": [
"partial",
"Proved for all types and all defaults except the text 'nil' for types other than texts and decimal.Decimal objects for Decimal. Refuted for Boolean, Date, DateTime and Time attributes whose default is a Python value of the type (every document without the attribute is rejected), and for decimal.Decimal defaults (a float is read where a new object holds the text)."
],
"C65": [
"partial",
"Refuted for self-reference through Element/Attribute/Ref/Content/ClassNamedElement (no recursion limit suffices); proved that classes referring to themselves only through ListElement can be instantiated (and parsed: C33)."
],
"C35": [
"partial",
"Proved for import graphs without cycles; on any graph a returned answer is right. Refuted on cyclic graphs: looking up an undeclared name never returns."
],
"C36": [
"partial",
"Termination on every graph and at most one call per location are proved; every reachable schema is visited when locations identify schemas. Refuted when two schemas share a location, e.g. both without one."
],
"C37": [
"partial",
"Proved for non-empty texts without control characters. Refuted otherwise: an empty message is read as None, a control character makes the server raise ValueError instead of answering."
],
"C38": [
"partial",
"Proved for non-empty texts without control characters. Refuted otherwise, as C37."
],
"C53": [
"proved",
"Also covers the WSDL binding namespaces."
],
"C39": [
"partial",
"Code and message arrive; the actor of a SOAPError raised by a handler is dropped by the dispatcher (refuted)."
],
"C40": [
"proved",
"Without hooks (C48 covers them)."
],
"C41": [
"partial",
"500 for faults and 200 for results proved; bad_request and not_found are answered with 200 because SOAPResponse ignores its status argument (refuted)."
],
"C42": [
"partial",
"Lookup by action, root element and substitution group fully characterised; a valid root without substitution group that is no method's input raises AttributeError instead of a fault (refuted)."
],
"C43": [
"proved",
"For all middlewares and hooks; 'at most once' for middlewares that call next_call at most once."
],
"C44": [
"partial",
"Client fault for the six documented kinds of bad request; exceptions escape for control characters in the message, an empty Body, a nil Header, processing instructions in the Envelope (refuted)."
],
"C45": [
"partial",
"Exceptions whose text XML can carry; with control characters the fault cannot be built and ValueError escapes (refuted). KeyboardInterrupt and the like pass through by design."
],
"C46": [
"proved",
""
],
"C47": [
"proved",
""
],
"C48": [
"partial",
"Hooks work at their points, but names are only checked as prefixes and 'xsd-response' is never called (refuted)."
],
"C49": [
"partial",
"SOAP 1.2 and SOAP 1.1 under Django, for actions without quotes or double backslashes; under WSGI and Flask the SOAP 1.1 action never arrives (refuted)."
],
"C50": [
"partial",
"For documents whose only dollar signs are the two placeholders; '$$' is served as '$' and under Django the scheme is always http without a proxy header (refuted)."
],
"C66": [
"partial",
"All nonnegative lengths; with a negative length the whole input is read (refuted)."
],
"C51": [
"partial",
"proved for every service without hooks and middlewares, objects of classes that round-trip (C21), document transmission as a hypothesis; class-typed and simple outputs and SOAP 1.1 with class-typed inputs refuted"
],
"C52": [
"partial",
"proved for header objects of exactly the declared class with a schema; refuted for classes without a schema"
],
"C67": [
"partial",
"refuted: the blocks are in the SOAP envelope namespace"
],
"C17": [
"partial",
"proved for every history and linearised hierarchy in which no Element object is two fields of one class; refuted otherwise"
],
"C18": [
"partial",
"proved for every history that never declares an Element object under two names; refuted for every reuse under another name"
],
"C28": [
"partial",
"proved for every program over classes whose groups have neither lists nor references; refuted with a list in a group"
],
"C57": [
"partial",
"Every schema exactly once: proved for all lists. Imports first: proved where imported schemas import nothing, and lists already in order are kept; refuted for chains of imports. C57_module_partial says the same of the statements in a module generated from a WSDL document."
],
"C58": [
"partial",
"Every type exactly once, and bases first where bases are unprefixed types of the same schema, for any sort satisfying the documented contract of list.sort; refuted for prefixed bases and for unknown unprefixed ones."
],
"C61": [
"partial",
"Distinctness and restoring proved for names whose first letters have the same case; refuted in general (first-letter case, qName, prefixes)."
],
"C59": [
"partial",
"xsd2py: termination, at most once, at least once proved for all import graphs and path spellings; refuted for the root document and for schemas inside a WSDL document. wsdl2py: proved for documents importing each other by mere names; refuted for ./name."
],
"C60": [
"partial",
"xsd2py with local documents: proved for all paths. Refuted for documents at URLs, for the imports of a WSDL document after one in a subdirectory, and for schemas in imported WSDL documents."
],
"C68": [
"proved",
"For every graph of imports; equality of schemas is by serialisation, as in the code."
],
"C69": [
"partial",
"The restricted integers, NMTOKEN(S), LanguageString and MaxOccurs refer to types that do not exist (C69_refuted); all other library types and the classes of the schema resolve."
],
"C55": [
"partial",
"Schemas without XML attributes are described, with the exact document (C55_partial). Refuted for every class with an attribute, includes without location, numeric fractionDigits of a class and numeric enumerations."
],
"C56": [
"partial",
"The facets in the document are exactly the carried ones (C56_partial). Lengths, white space, zero bounds and enumerations of derived types are dropped (refuted)."
],
"C54": [
"partial",
"For services whose schemas and methods can be described, with distinct colon-free operation names: the exact document, consistency of its references, and the library's own lookup. Refuted for elements of other schemas than the first, shared operation names, names with colons, no schemas and one-way operations."
],
"C70": [
"proved",
"For all describable schemas and services (SpecXsd, SpecGenWsdl)."
],
"C71": [
"partial",
"Proved for types whose particles name their types (attributes and elements with type=), extensions, top-level elements, groups and attribute groups, for the types in any order the generator puts them; the counterexamples listed in the statement are proved as _refuted theorems, the one about recursive types for all schemas and recursion limits.  That documents can be imported at all is C78.  References to attribute groups: C71_references_partial and C71_extension_references_partial.  Not covered: documents that define a class name twice."
],
"C72": [
"partial",
"Enumeration and pattern on string types proved exactly; the loss of length, inherited pattern and all numeric facets is proved as _refuted."
],
"C73": [
"partial",
"Proved for all absolute addresses without empty parts and dollar signs; the other cases are refuted by witnesses."
],
"C74": [
"partial",
"Proved for client and server over all documents with one element part per message, usable names and no headers; C91 proves the same with header blocks. The excluded shapes are refuted one by one."
],
"C75": [
"partial",
"C75_call_partial for documents of the shape of C74 (one part per message given by an element, actions stated, no headers) and one platform shared by both sides, without hooks and middlewares; C75_same_element_refuted: with SOAP 1.1 under WSGI and Flask the second of two operations taking the same element runs the function of the first. Header blocks: C92."
],
"C76": [
"partial",
"C76_client_partial and C76_server_partial: inputs and outputs by element, usable names, absolute location, documents without inserted noise; the Schema objects are those the module has bound (C71 is about them).  C76_name_refuted, C76_class_refuted, C76_placeholders_refuted."
],
"C77": [
"partial",
"C77_same_call_partial and C77_call_partial for services without header classes; one platform shared by both sides.  Header classes are not written to WSDL by py2wsdl, so they cannot come back."
],
"C78": [
"proved",
"Generation (with the reordering of types), import and calling every class are proved to succeed for all documents of the form described; four _refuted theorems show that the conditions matter."
],
"C79": [
"proved",
"Composition of C55, C70, C58, C78 and C71/C72 for schemas in which types are passed as classes; the refuted theorems show what is not kept and why the conditions are needed. Types passed as instances (facets written inside the element) and XML attributes (which py2xsd cannot describe, C55) are not covered."
],
"C80": [
"proved",
"Two environments that agree on a closed set of classes read, write and build the same; agreement by C79 and the exact simple types of C72. The refuted theorem shows why derived classes are excluded when building."
],
"C81": [
"partial",
"Composition of C76 with C78, C79 and C80 over the one module state; services with one schema (several schemas: not covered), documents without inserted noise. C81_clash_refuted: a class named like an operation is lost in a server module."
],
"C82": [
"partial",
"C80 and C81 give the module's classes and methods; then the stub is equal on platforms whose environments agree. Services with one schema and without headers; noise in the document and several schemas are not covered."
],
"C83": [
"partial",
"As C82, for the dispatcher; the functions are those of the original service (the generated bodies raise NotImplementedError)."
],
"C84": [
"proved",
"All documents of a directory that fit together, for all graphs without circles; four _refuted theorems (three of them for whole families of documents) show that the conditions matter. Documents in other directories or at URLs are covered by C59 (which documents are visited) but not here."
],
"C85": [
"proved",
"The spec of validity (SpecValid) covers the constructs that py2xsd writes; facets of inherited pattern of Integer are included. Classes with XML attributes and group references are outside: the former have no XSD document at all (C55)."
],
"C86": [
"proved",
"All documents that SpecValid calls valid; it leaves out other built-in types, facets and attributes. The conditions are part of the statement; the refuted theorems show valid documents that are refused or misread without them."
],
"C87": [
"proved",
"The refuted theorem shows that use_wsa=True never works."
],
"C88": [
"proved",
""
],
"C89": [
"proved",
"C89_serves, C89_links_wsdl and C89_links_xsd; the conditions in the statement are shown to matter by the _refuted theorems. lxml's serialisation and XMLSchema compilation are parameters."
],
"C90": [
"partial",
"Composition of C51, C85, C86 and C89: assumes of etree.XMLSchema only that it accepts what is valid (SpecValid). Calls with SOAP headers are refuted for the default strict_soap_header=True (C90_header_calls_refuted) and proved for strict_soap_header=False and header classes of plain elements (C90_header_calls_partial)."
],
"C91": [
"proved",
"Client, server and field lookup, for all documents of the stated shape; the excluded shapes are refuted one by one."
],
"C92": [
"partial",
"C92_call gives the round trip of headers and bodies. The class names of the header classes on the platform are a parameter (clsc, clss). That the blocks are the elements the document names is false: C92_block_refuted."
],
"C93": [
"partial",
"Requests, replies and faults are proved read from every such envelope. Refuted: the namespace of the envelope is never looked at, so an envelope of the other SOAP version runs the function (C93_version_refuted), and an unknown block with mustUnderstand is ignored by a dispatcher that is not strict (C93_must_understand_refuted). Messages called message or Fault are found by the server (C93_names_partial); the client does not return a result called Fault (C93_names_refuted). Not covered: such messages with children called like the parts the Body class reads; processing instructions crash (C44_instruction_refuted)."
],
"C94": [
"partial",
"C94_agree and C94_finish for types given by class or instance, or used before. Refuted for types given by name that have not been used: two first uses can make one of them raise TypeError (C94_name_refuted). In that case nothing but a TypeError can be raised and whoever finishes has the right type (C94_names_partial); a thread on its own raises nothing (C94_alone). Granularity: one read or write of a shared attribute."
],
"C95": [
"partial",
"Proved when the statement raising the counter is carried out as a whole (C95_whole_partial), and when only one thread makes Element objects (C95_alone_partial). Refuted when another thread can come between its read and its write: the fields of a class change their order (C95_refuted)."
],
"C96": [
"partial",
"At most one item too many per further thread (C96_bound_partial), nothing is lost (C96_total); the bound itself is refuted for two threads (C96_refuted). C20 then refuses to write the list."
],
"C97": [
"partial",
"Proved for roots that are Elements of a complex type. The natural claims that parsexml returns the document, that NAMESPACE and tagname are used, and that derived classes are unaffected are refuted: C97_history, C97_root_refuted, C97_derived_refuted."
],
"C98": [
"partial",
"Everything proved except that xml accepts a Schema object, which is refuted (C98_object_refuted)."
],
"C99": [
"partial",
"What the programs write, where options may stand, and every point of interruption are proved. That a failed run leaves the output as it was is refuted; proved instead is that nothing but the output is changed and that it is empty then."
],
"C100": [
"partial",
"Which prefixes are taken for XML Schema's is characterised for all documents; that type names are printed by their meaning is proved if no prefix has two meanings and refuted in general. Declarations on elements below a schema are not followed."
],
"C101": [
"partial",
"Refuted in general: attributes are not shown (C101_hides_refuted) and texts are ambiguous (C101_ambiguous_refuted); C101_returns and C101_shows hold for all objects, C101_error_partial for errors without the separators."
],
"C102": [
"partial",
"That a further schema leaves what is written unchanged is refuted (C102_writing_refuted), as is that a Schema call that raises has no effect (C102_raises_refuted); proved for schemas that name none of the classes. Everything else holds for all histories."
],
"C103": [
"partial",
"Equality of XSDDates, kinds of equal values and the way from dates are proved. Refuted: equality is not transitive, since an XSDDate equals every datetime of its day and zone (C103_transitive_refuted); the way to a plain date loses the zone (C103_to_date_partial is exact)."
]
}