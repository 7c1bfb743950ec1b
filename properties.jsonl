{"id": "C01", "title": "String field accepts exactly the strings that satisfy its facets", "statement": "Assigning v to a String-typed field succeeds iff v is None, or v is a str whose white-space-normalised form satisfies every declared facet (pattern, enumeration, length, minLength, maxLength); on success the stored value is exactly that normalised form, and on failure a ValueError is raised.", "quantifier": "every facet combination (positive lengths, non-empty enumeration, patterns without top-level alternation) and every Python value", "why_tests_cant": "infinitely many strings and facet combinations", "anchors": ["soapfish/xsd.py: String.__init__, String.accept, String._clean_whitespace"]}
{"id": "C02", "title": "A facet of zero / an empty enumeration is enforced like any other", "statement": "A String type declared with length=0 or maxLength=0 rejects every non-empty string, and one declared with enumeration=[] rejects every string.", "quantifier": "every string", "why_tests_cant": "expected to fail: shows a family of inputs, not one example", "anchors": ["soapfish/xsd.py: String.accept"]}
{"id": "C03", "title": "A pattern constrains the whole value", "statement": "If a String or numeric type declares a pattern, every accepted value matches the pattern in full: there is no accepted value of which only a prefix matches.", "quantifier": "every regular expression of the modelled syntax and every string", "why_tests_cant": "quantifies over all patterns and all strings", "anchors": ["soapfish/xsd.py: String.accept, Decimal._check_restrictions"]}
{"id": "C04", "title": "White-space normalisation", "statement": "whiteSpace=replace yields a string of the same length in which the only white space is U+0020; collapse additionally never leaves two adjacent spaces; both are idempotent and leave non-white-space characters and their order unchanged; any other setting leaves the string unchanged.", "quantifier": "every string", "why_tests_cant": "infinitely many strings", "anchors": ["soapfish/xsd.py: String._clean_whitespace"]}
{"id": "C05", "title": "Integer types enforce exactly their XSD value range", "statement": "For each of the thirteen integer types, assigning an int z succeeds and stores z iff z lies in the value space XML Schema defines for that type; otherwise ValueError. None may be assigned, and a text iff it denotes an int in range, which is what is then stored.", "quantifier": "every integer type and every (unbounded) int", "why_tests_cant": "unbounded integers; boundary mistakes are invisible away from the boundary", "anchors": ["soapfish/xsd.py: Integer.__init__, Integer.accept, NonNegativeInteger .. UnsignedByte"]}
{"id": "C06", "title": "Integers survive the trip through XML text", "statement": "For every integer type and every int in its range, reading back the text written for it yields the same int; and text is accepted iff Python int() accepts it and the result is in range. None is written as the text None, which is refused when read.", "quantifier": "every integer type, every int, every text", "why_tests_cant": "unbounded integers and arbitrary texts", "anchors": ["soapfish/xsd.py: Integer, Decimal.xmlvalue, Decimal.pythonvalue"]}
{"id": "C07", "title": "User facets narrow an integer type", "statement": "Facets passed to the constructor of an integer type are enforced in addition to the type's own range.", "quantifier": "every integer type, every facet set, every int", "why_tests_cant": "interaction of two facet sources over unbounded ints", "anchors": ["soapfish/xsd.py: Integer.__init__, Integer.overrides"]}
{"id": "C08", "title": "Decimal/Double/Float facets are enforced numerically for int and float values", "statement": "An int or float value is accepted by a Decimal field iff it satisfies every numeric bound and the textual facets as the code defines them; the stored value is the assigned one.", "quantifier": "every facet set and every int/float value", "why_tests_cant": "unbounded numbers, all facet combinations", "anchors": ["soapfish/xsd.py: Decimal._check_restrictions, Decimal.accept"]}
{"id": "C09", "title": "decimal.Decimal values are first-class values of a Decimal field", "statement": "A decimal.Decimal that lies within the declared bounds is accepted, and what is stored compares equal to what was assigned.", "quantifier": "every decimal.Decimal and every bound", "why_tests_cant": "expected to fail for every bounded field, not just one value", "anchors": ["soapfish/xsd.py: Decimal.accept"]}
{"id": "C10", "title": "Booleans round-trip, and everything accepted can be rendered", "statement": "Every value a Boolean field accepts can be written to XML, and True/False/None read back as themselves; every other text raises ValueError.", "quantifier": "every Python value and every text", "why_tests_cant": "Python equality makes 1, 1.0, 0 … equal to booleans", "anchors": ["soapfish/xsd.py: Boolean"]}
{"id": "C11", "title": "Dates round-trip with their time zone", "statement": "For every calendar date with optional whole-minute UTC offset, reading the text written for it yields an equal XSDDate. None, XSDDates and plain dates may be assigned; datetimes, times, texts and numbers may not.", "quantifier": "every valid date 0001..9999 and every offset in (-24h,24h)", "why_tests_cant": "millions of dates times offsets; platform-dependent %Y", "anchors": ["soapfish/xsd.py: Date", "soapfish/xsd_types.py: XSDDate", "soapfish/utils.py: timezone_offset_to_string"]}
{"id": "C12", "title": "Reading a date text yields a real calendar date or a ValueError", "statement": "Date.pythonvalue on any string returns None (only for \"nil\"), an XSDDate naming an existing day whose digits are those in the text, or raises ValueError - nothing else.", "quantifier": "every string", "why_tests_cant": "arbitrary input strings", "anchors": ["soapfish/xsd.py: Date.pythonvalue, Date._parse_tz"]}
{"id": "C13", "title": "UTC offsets are written as a valid XSD time-zone suffix", "statement": "For every UTC offset strictly between -24h and 24h the written suffix has the form (+|-)hh:mm with hh<24, mm<60, denotes exactly the offset when it is a whole number of minutes, and otherwise differs from it by less than one minute.", "quantifier": "every timedelta in range, in microseconds", "why_tests_cant": "1.7e11 offsets", "anchors": ["soapfish/utils.py: timezone_offset_to_string"]}
{"id": "C14", "title": "DateTime values round-trip", "statement": "For every time-zone-aware datetime without sub-second part, year >= 1000 and whole-minute offset, reading the text written for it yields the same datetime; sub-second parts are dropped; a naive datetime comes back as UTC. A text YYYY-MM-DDThh:mm:ss with any fraction and zone is read to the microsecond as what it says, and refused if there is no such date, time or zone; only datetimes, None and such texts may be assigned.", "quantifier": "every datetime", "why_tests_cant": "huge domain", "anchors": ["soapfish/xsd.py: DateTime"]}
{"id": "C15", "title": "Time values round-trip", "statement": "For every aware time without sub-second part and with whole-minute offset, reading the text written for it yields the same time; a naive time comes back as UTC; malformed text raises ValueError. A text hh:mm:ss with any fraction and zone is read to the microsecond as what it says, and refused if there is no such time or zone; only times, None and such texts may be assigned; None is written nil and read back.", "quantifier": "every time of day and every text", "why_tests_cant": "huge domain", "anchors": ["soapfish/xsd.py: Time"]}
{"id": "C16", "title": "maxOccurs values round-trip", "statement": "Every non-negative int and UNBOUNDED written by the MaxOccurs type read back as themselves. 'unbounded' and any positive infinity may be assigned and mean UNBOUNDED, None is kept, texts mean the int they denote, other numbers are truncated towards zero, and everything else is an error (OverflowError for negative infinity, ValueError for texts and NaN, TypeError otherwise).", "quantifier": "every int and UNBOUNDED", "why_tests_cant": "unbounded ints", "anchors": ["soapfish/xsd.py: MaxOccurs, UNBOUNDED"]}
{"id": "C17", "title": "Fields are rendered in declaration order", "statement": "The fields of a class (own and inherited, an overriding declaration replacing the inherited one) appear exactly once each, in the order in which their descriptors were created, whatever their Python names.", "quantifier": "every class hierarchy", "why_tests_cant": "arbitrary hierarchies and names; dir() sorts alphabetically", "anchors": ["soapfish/xsd.py: ComplexTypeMetaInfo, Complex_PythonType, Element._creation_counter"]}
{"id": "C18", "title": "A class keeps its own field names however its descriptors are reused", "statement": "After any sequence of class definitions, every class can still set and read each of its fields under the name it was declared with.", "quantifier": "every history of class definitions, including ones that reuse one Element object under several names", "why_tests_cant": "histories of definitions", "anchors": ["soapfish/xsd.py: ComplexTypeMetaInfo.__init__ (item._name = attr)", "soapfish/templates/wsdl.jinja2"]}
{"id": "C19", "title": "Assignments keep every scalar field valid", "statement": "Starting from a fresh instance, after any sequence of successful or failed attribute assignments every scalar field holds a value its type accepts; a failed assignment leaves the instance unchanged; assigning an unknown name always fails. Calling the class with keyword arguments succeeds iff calling it without any does and every argument names a field that takes its value; the object then holds what was accepted, and elsewhere what a fresh instance holds.", "quantifier": "every class, every sequence of assignments", "why_tests_cant": "histories of operations", "anchors": ["soapfish/xsd.py: ComplexType.__setattr__, ComplexType._find_field, Element.accept"]}
{"id": "C20", "title": "List fields respect type and maxOccurs under append, and occurrence bounds are enforced on output", "statement": "Through any sequence of appends a list field only ever contains accepted items and never more than maxOccurs; rendering fails unless minOccurs <= length <= maxOccurs, even when the list was replaced wholesale. An append succeeds iff there is room for one more and the value is accepted.", "quantifier": "every list declaration and every sequence of appends / replacements", "why_tests_cant": "histories of operations", "anchors": ["soapfish/xsd.py: TypedList.append, ListElement.accept, ListElement.render"]}
{"id": "C21", "title": "Rendering then parsing returns an equal object", "statement": "For every well-formed class (distinct tags, attributes without tagname, no Choice, no non-group Ref) and every fully valid instance, with nested objects, lists, nils, attributes and groups to any depth, parsing the rendered element yields an instance with the same field values.", "quantifier": "every class environment, every instance, any nesting depth", "why_tests_cant": "unbounded structures", "anchors": ["soapfish/xsd.py: ComplexType.render, ComplexType.parse_xmlelement, Element, ListElement, Attribute, Ref"]}
{"id": "C22", "title": "Parsing ignores comments, text between elements and unknown elements/attributes", "statement": "Inserting comments, white space or other text after the first child, elements matching no field, or attributes matching no field anywhere among the children of an element does not change the parsed field values.", "quantifier": "every element and every insertion", "why_tests_cant": "arbitrary documents", "anchors": ["soapfish/xsd.py: ComplexType._is_matching_element, _find_subelement, parse_xmlelement"]}
{"id": "C23", "title": "Parsing does not depend on the order of different fields", "statement": "Reordering the children of an element without reordering children that match the same field does not change the parsed field values.", "quantifier": "every element, every such permutation", "why_tests_cant": "arbitrary permutations", "anchors": ["soapfish/xsd.py: ComplexType.parse_xmlelement"]}
{"id": "C24", "title": "Rendered elements carry exactly the namespace the schema prescribes", "statement": "When rendering, a child element is qualified with the field namespace, or else the schema's target namespace, iff elementFormDefault is qualified; attributes are never qualified.", "quantifier": "every class, instance and namespace", "why_tests_cant": "recursive propagation over nested types", "anchors": ["soapfish/xsd.py: Element.render, ListElement.render, ComplexType.render"]}
{"id": "C25", "title": "An attribute with an explicit tagname round-trips", "statement": "An Attribute declared with a tagname different from its Python name is read back from what was rendered.", "quantifier": "every attribute declaration and value", "why_tests_cant": "expected to fail for every declaration", "anchors": ["soapfish/xsd.py: Attribute.render, Attribute.parse"]}
{"id": "C26", "title": "A Choice type round-trips", "statement": "For a class with INDICATOR=Choice, parsing the rendering of an instance recovers the chosen alternative.", "quantifier": "every choice class and instance", "why_tests_cant": "expected to fail for every instance", "anchors": ["soapfish/xsd.py: ComplexType.parse_xmlelement (is_choice)"]}
{"id": "C27", "title": "A Ref to a complex type round-trips", "statement": "For a field declared Ref(T) with T not a Group, parsing the rendering of an instance recovers the referenced object.", "quantifier": "every class with such a Ref", "why_tests_cant": "expected to fail generally", "anchors": ["soapfish/xsd.py: Ref.render, Element.parse"]}
{"id": "C28", "title": "Distinct instances do not share state", "statement": "Changing a field or appending to a list reachable from one instance never changes what is read from another, separately constructed instance.", "quantifier": "every class (including group references), every operation sequence", "why_tests_cant": "aliasing depends on the heap history", "anchors": ["soapfish/xsd.py: Ref.empty_value (copy.copy), ListElement.empty_value"]}
{"id": "C29", "title": "xsi:nil is honoured", "statement": "An element is read as NIL exactly when its xsi:nil attribute is the boolean true.", "quantifier": "every nillable field, every attribute value", "why_tests_cant": "arbitrary attribute values", "anchors": ["soapfish/xsd.py: Element.parse, ListElement.parse"]}
{"id": "C30", "title": "Required attributes are enforced on output", "statement": "Rendering an instance in which some required attribute is None (or NIL when not nillable) never succeeds, and raises ValueError if the fields before it can be rendered; otherwise exactly the non-None attributes are emitted.", "quantifier": "every class with attributes and every instance", "why_tests_cant": "all field/value combinations", "anchors": ["soapfish/xsd.py: Attribute.render"]}
{"id": "C31", "title": "Equality and hashing are consistent", "statement": "Equality of instances is symmetric and transitive, equal instances have equal hashes, and an instance equals itself.", "quantifier": "every pair and triple of instances", "why_tests_cant": "relational properties over all values", "anchors": ["soapfish/xsd.py: ComplexType.__eq__, __hash__, __lt__"]}
{"id": "C32", "title": "Any subclass instance is accepted and rendered in full", "statement": "A field of type T accepts exactly None and instances of T or a subclass, and renders all fields of the actual class.", "quantifier": "every class hierarchy", "why_tests_cant": "all hierarchies", "anchors": ["soapfish/xsd.py: ComplexType.accept, ComplexType.render"]}
{"id": "C33", "title": "Every well-formed document is either parsed or rejected with ValueError", "statement": "Parsing any XML element with any class (no user code) ends in an instance or a ValueError, never another exception.", "quantifier": "every element tree (with comments and processing instructions), every class", "why_tests_cant": "arbitrary documents", "anchors": ["soapfish/xsd.py: ComplexType.parse_xmlelement, _is_matching_element"]}
{"id": "C34", "title": "What is set is what is sent: empty strings", "statement": "A String element set to the empty string is read back as the empty string.", "quantifier": "every String element", "why_tests_cant": "expected to fail: shown for all", "anchors": ["soapfish/xsd.py: SimpleType.render, SimpleType.parse_xmlelement"]}
{"id": "C35", "title": "Element lookup in a schema follows imports depth-first", "statement": "get_element_by_name(n) returns the element of the first schema, in depth-first import/include order, that declares n, and None if no reachable schema does; it always returns.", "quantifier": "every finite import graph, including cyclic ones", "why_tests_cant": "arbitrary graphs", "anchors": ["soapfish/xsd.py: Schema.get_element_by_name"]}
{"id": "C36", "title": "The schema walk visits each location once and terminates", "statement": "walk_schema_tree calls the callback exactly once per distinct reachable location and terminates on cyclic import graphs.", "quantifier": "every import graph", "why_tests_cant": "arbitrary, possibly cyclic graphs", "anchors": ["soapfish/utils.py: walk_schema_tree", "soapfish/soap_dispatch.py: SOAPDispatcher.__init__"]}
{"id": "C37", "title": "SOAP 1.1 faults survive the wire", "statement": "For every fault code and message, the code and message a client reads from the error response built by the server equal the ones the server put in.", "quantifier": "every code and message", "why_tests_cant": "arbitrary strings", "anchors": ["soapfish/soap11.py: SOAP11, Fault, Body", "soapfish/soap.py: Stub"]}
{"id": "C38", "title": "SOAP 1.2 faults survive the wire", "statement": "For every fault code and message, the code and reason a client reads from the error response built by the server equal the ones the server put in.", "quantifier": "every code and message", "why_tests_cant": "arbitrary strings", "anchors": ["soapfish/soap12.py: SOAP12, Fault"]}
{"id": "C39", "title": "The actor of a raised SOAPError reaches the client", "statement": "When a handler raises SOAPError(code, message, actor) the response fault carries that actor.", "quantifier": "every SOAPError", "why_tests_cant": "expected to fail for all", "anchors": ["soapfish/core.py: SOAPError", "soapfish/soap_dispatch.py: dispatch, handle_soap_request"]}
{"id": "C40", "title": "Requests are routed by method and query string", "statement": "GET with the query key wsdl or singleWsdl yields the WSDL, GET with key xsd the named schema or not_found, POST is processed as SOAP, and everything else yields bad_request, without calling the service; exactly one of these cases applies to a request.", "quantifier": "every request method, every query string, every service", "why_tests_cant": "infinite query strings", "anchors": ["soapfish/soap_dispatch.py: SOAPDispatcher.dispatch, handle_wsdl_request, handle_xsd_request"]}
{"id": "C41", "title": "HTTP status codes tell success from failure", "statement": "A successful SOAP call has status 200, a SOAP fault 500, a bad request 400, and an unknown schema 404. Every answer to a SOAP request has the content type of the service's SOAP version, and keeps the other headers set by the handler or the middlewares.", "quantifier": "every request", "why_tests_cant": "all execution paths", "anchors": ["soapfish/core.py: SOAPResponse", "soapfish/soap_dispatch.py: dispatch, handle_soap_request, handle_xsd_request"]}
{"id": "C42", "title": "A request is routed to the right method", "statement": "If a SOAPAction is present the first method with that action is chosen, otherwise the first method whose input element is the body root (or in its substitution group); no match is reported as a fault, never as a crash.", "quantifier": "every service description and request", "why_tests_cant": "all services and requests", "anchors": ["soapfish/soap_dispatch.py: _find_handler_for_request"]}
{"id": "C43", "title": "A handler only ever sees a schema-valid body", "statement": "The user function of a method is called at most once per request, only after the body has been validated, and with the object parsed from the body.", "quantifier": "every service, middleware stack, request and validator verdict", "why_tests_cant": "all execution paths", "anchors": ["soapfish/soap_dispatch.py: handle_soap_request, _prepare_request, _validate_body", "call_method"]}
{"id": "C44", "title": "Any bad request is answered with a fault", "statement": "Whatever bytes are posted, dispatch returns a SOAP fault response and never lets an exception escape.", "quantifier": "every request body", "why_tests_cant": "arbitrary input", "anchors": ["soapfish/soap_dispatch.py: dispatch, _parse_soap_content, _prepare_request"]}
{"id": "C45", "title": "ExceptionToSoapFault turns every handler exception into a fault", "statement": "With the ExceptionToSoapFault middleware, whatever exception the rest of the stack raises is answered with a Server fault naming the exception (or the SOAPError's own code), with status 500; results pass through unchanged.", "quantifier": "every inner middleware stack and every exception", "why_tests_cant": "higher-order: all inner stacks", "anchors": ["soapfish/middlewares.py: ExceptionToSoapFault"]}
{"id": "C46", "title": "ExceptionLogger is transparent", "statement": "Adding ExceptionLogger changes neither results nor exceptions, and logs exactly the requests that raised.", "quantifier": "every inner middleware stack", "why_tests_cant": "higher-order", "anchors": ["soapfish/middlewares.py: ExceptionLogger"]}
{"id": "C47", "title": "Middlewares nest in list order", "statement": "Each middleware receives the rest of the stack as next_call: the first in the list is outermost, the method call innermost, and a middleware that does not call next_call prevents everything after it.", "quantifier": "every list of middlewares", "why_tests_cant": "arbitrary stacks", "anchors": ["soapfish/soap_dispatch.py: get_middlewares/_next, handle_soap_request"]}
{"id": "C48", "title": "Hooks run at the documented points", "statement": "Only the documented hook names can be registered; a registered hook is called at its point with the current value and its result replaces it. The first name that is refused is named by a KeyError.", "quantifier": "every hook name and hook function", "why_tests_cant": "arbitrary strings and functions", "anchors": ["soapfish/soap_dispatch.py: SOAPDispatcher.__init__, _call_hook, handle_wsdl_request, handle_xsd_request"]}
{"id": "C49", "title": "The SOAPAction of a request reaches the dispatcher", "statement": "For every action string, the action the client puts into the HTTP headers is the action the server determines, under WSGI, Flask and Django, for both SOAP versions.", "quantifier": "every action string", "why_tests_cant": "arbitrary strings and quoting", "anchors": ["soapfish/soap11.py: build_http_request_headers, determine_soap_action", "soapfish/soap12.py", "soapfish/django_.py: DjangoEnvironWrapper", "soapfish/flask_.py", "soapfish/core.py: SOAPRequest"]}
{"id": "C50", "title": "The served WSDL is the generated one with host and scheme filled in", "statement": "The WSDL body served equals the generated document with ${scheme} and ${host} replaced and nothing else changed.", "quantifier": "every document and every host", "why_tests_cant": "arbitrary strings", "anchors": ["soapfish/soap_dispatch.py: handle_wsdl_request"]}
{"id": "C51", "title": "A call through Stub reaches the handler and its result comes back", "statement": "For every service, method and valid input object, with an identity transport and a validator that accepts valid requests, Stub.call returns an object equal to what the server function returned for an object equal to the one passed; if it raised SOAPError the caller gets a SOAPError with the same code and message.", "quantifier": "every service, method, input, output", "why_tests_cant": "end-to-end over all values", "anchors": ["soapfish/soap.py: Stub.call, Stub._handle_response", "soapfish/soap_dispatch.py: handle_soap_request"]}
{"id": "C52", "title": "SOAP headers reach the handler", "statement": "A header object sent by the client is available to the server method as an equal object of the declared header class.", "quantifier": "every header class and instance", "why_tests_cant": "all values", "anchors": ["soapfish/soap11.py: Header", "soapfish/soap12.py: Header", "soapfish/soap_dispatch.py: _parse_header"]}
{"id": "C53", "title": "The SOAP version is determined by the namespace", "statement": "For each of the two envelope namespaces and each of the two WSDL binding namespaces exactly one implementation is selected; any other namespace is rejected.", "quantifier": "every namespace", "why_tests_cant": "arbitrary strings", "anchors": ["soapfish/soap.py: SOAPVersion"]}
{"id": "C54", "title": "A generated WSDL is internally consistent", "statement": "In the WSDL generated for a service every message, port type, binding and operation reference resolves, and resolving an operation's input/output message yields the declared element.", "quantifier": "every service", "why_tests_cant": "all services", "anchors": ["soapfish/py2wsdl.py", "soapfish/wsdl.py: get_by_name, get_message_object"]}
{"id": "C55", "title": "Every class can be described as XSD", "statement": "generate_xsd succeeds for every schema whose classes use only documented features.", "quantifier": "every schema", "why_tests_cant": "expected to fail for every class with attributes", "anchors": ["soapfish/py2xsd.py: xsd_attribute, generate_xsd", "soapfish/xsdspec.py: Attribute"]}
{"id": "C56", "title": "The generated XSD carries every facet", "statement": "Every facet declared on a simple type appears in the generated restriction with the same value.", "quantifier": "every simple type declaration", "why_tests_cant": "all facet combinations", "anchors": ["soapfish/py2xsd.py: create_xsd_element, xsd_simpleType"]}
{"id": "C57", "title": "Schemas are ordered so that imports come first", "statement": "wsdl2py emits every schema exactly once, each after the schemas it imports.", "quantifier": "every list of schemas with acyclic imports", "why_tests_cant": "arbitrary dependency graphs", "anchors": ["soapfish/wsdl2py.py: reorder_schemas"]}
{"id": "C58", "title": "Generated classes are ordered so that base types come first", "statement": "xsd2py emits every complex type exactly once, each after its base type.", "quantifier": "every acyclic inheritance graph", "why_tests_cant": "arbitrary graphs; comparator-based sort", "anchors": ["soapfish/xsd2py.py: _reorder_complexTypes"]}
{"id": "C59", "title": "Code generation terminates and visits each schema file once", "statement": "Import resolution in the generators terminates on cyclic imports and processes each location once.", "quantifier": "every import graph", "why_tests_cant": "arbitrary graphs", "anchors": ["soapfish/xsd2py.py: generate_code_from_xsd, resolve_import", "soapfish/wsdl2py.py: merge_imports"]}
{"id": "C60", "title": "Relative schema locations resolve against the importing document", "statement": "A relative schemaLocation is resolved against the directory of the document that contains it, for every import of that document.", "quantifier": "every sequence of imports", "why_tests_cant": "depends on sibling order", "anchors": ["soapfish/wsdl2py.py: merge_imports", "soapfish/xsd2py.py: rewrite_paths", "soapfish/utils.py: resolve_location"]}
{"id": "C61", "title": "Name mangling keeps distinct names distinct", "statement": "Type names that differ in the schema still differ after the capitalize/uncapitalize mangling of the generators, and mangling back yields the original name.", "quantifier": "every pair of names", "why_tests_cant": "all strings", "anchors": ["soapfish/utils.py: capitalize, uncapitalize, get_type"]}
{"id": "C62", "title": "Ordering of instances is a strict total order", "statement": "For instances read from XML, < is irreflexive, transitive and total up to ==, and >, <=, >= agree with it; the same for instances built in Python.", "quantifier": "every triple of instances, every serialisation of elements", "why_tests_cant": "An ordering law over all triples of instances cannot be settled by comparing a few.", "anchors": ["soapfish/xsd.py:ComplexType.__lt__", "soapfish/xsd.py:ComplexType.__eq__"]}
{"id": "C63", "title": "Equality follows the field values", "statement": "After assigning a different value to a field of a parsed instance it is no longer equal to the original; instances with the same content are equal wherever they occur in a document.", "quantifier": "every parsed instance, field and assignment", "why_tests_cant": "It must hold for every class and every assignment; a test sees single cases.", "anchors": ["soapfish/xsd.py:ComplexType.__eq__", "soapfish/xsd.py:ComplexType.__setattr__"]}
{"id": "C64", "title": "An absent attribute reads as its declared default", "statement": "When a document lacks an attribute of a class, the parsed object's field holds the same value a freshly created object holds, i.e. the declared default.", "quantifier": "all classes, attribute declarations with any default, and all documents lacking that attribute", "why_tests_cant": "the default passes through the text decoder of the attribute's type, so whether it survives depends on every combination of type and default value", "anchors": ["soapfish/xsd.py:Attribute.parse", "soapfish/xsd.py:Element.empty_value", "soapfish/xsd.py:Boolean.pythonvalue"]}
{"id": "C65", "title": "A class may refer to itself", "statement": "A class whose fields refer, directly or through other classes, to the class itself can be instantiated and parsed.", "quantifier": "all sets of mutually referring classes, any recursion limit", "why_tests_cant": "tests instantiate particular classes at one recursion limit; the claim ranges over all reference graphs", "anchors": ["soapfish/xsd.py:ComplexType.__new__", "soapfish/xsd.py:Element._evaluate_type", "soapfish/xsd.py:ListElement"]}
{"id": "C66", "title": "The WSGI application reads the body of the request and nothing else", "statement": "WsgiSoapApplication hands the dispatcher exactly the CONTENT_LENGTH bytes of the request body, whatever follows them, and gives the server the status line, headers and content of the dispatcher's response; a CONTENT_LENGTH that is not a number raises ValueError without calling anything. The Flask and Django adapters hand on status, headers and content as they are.", "quantifier": "every request body, every following input, every dispatcher", "why_tests_cant": "arbitrary inputs", "anchors": ["soapfish/soap_dispatch.py: WsgiSoapApplication.__call__", "soapfish/core.py: SOAPResponse.http_status_text"]}
{"id": "C67", "title": "Header blocks carry the namespace of their schema", "statement": "The children of the Header of a rendered envelope are in the target namespace of the schema of the header object's class (as WS-I and every other toolkit expect).", "quantifier": "every header class with a schema, every header object, both SOAP versions", "why_tests_cant": "the library's own round trip ignores namespaces, so tests through the library pass whichever namespace is written", "anchors": ["soapfish/soap11.py: Header.render", "soapfish/soap12.py: Header.render"]}
{"id": "C68", "title": "Merging imported WSDL documents collects everything", "statement": "When wsdl2py merges imported documents, the result contains exactly the services, bindings, messages, port types and schemas of the document and of every document read, without introducing duplicates.", "quantifier": "every document and every graph of imports", "why_tests_cant": "arbitrary import graphs, including cyclic ones", "anchors": ["soapfish/wsdl2py.py: merge_imports"]}
{"id": "C69", "title": "Type references in a generated XSD resolve", "statement": "Every type an element of a generated XSD refers to is either the XML Schema built-in with the meaning of the library type, or a type defined in the same document.", "quantifier": "every schema and every field of its classes", "why_tests_cant": "all library types times all schemas; tests use only a few types", "anchors": ["soapfish/py2xsd.py: get_xsd_type, create_xsd_element", "soapfish/utils.py: uncapitalize"]}
{"id": "C70", "title": "A generated XSD or WSDL document reads back as what it was made from", "statement": "Parsing a generated XSD or WSDL document with the library's own classes, pretty-printed or not and with comments or foreign elements added, gives an object with the same field values as the one the document was made from; this holds for every object of these classes whose values survive as text.", "quantifier": "every schema and service that can be described, every layout of the document, every instance of the XSD and WSDL classes", "why_tests_cant": "unboundedly many schemas, services and documents", "anchors": ["soapfish/xsdspec.py", "soapfish/wsdl11.py", "soapfish/wsdl12.py", "soapfish/py2xsd.py: generate_xsd", "soapfish/py2wsdl.py: generate_wsdl"]}
{"id": "C71", "title": "Classes generated from an XSD have the content of its types", "statement": "When a Python module generated from an XSD document can be imported, every complex type of the document has a class in it, named like the type with a capital first letter, whose fields are exactly the attributes and elements of the type in their order, each with the element or attribute name, the Python type its XSD type denotes, its occurrence, and its nillability; an extension has the fields of its base class, too; the classes are in the target namespace; top-level elements are elements of the generated Schema, with their substitution groups.  The property is false in general: elements with an inline simple type lose their occurrence, nested groups, inline complex types and simple content vanish, an attribute and an element with the same name become one field, a restriction keeps what it leaves out, XSD's default of one occurrence is not applied to lists, and documents with recursive types, hyphens in names, unions, references, built-in types like token, or an extension before its base where that is an extension too give modules that cannot be imported.", "quantifier": "all xsdspec.Schema objects (any number of types, elements and attributes), all prefixes of the XML Schema namespace, all sets of types known from other documents, all recursion limits, for which the generated module can be imported", "why_tests_cant": "A test generates code for a few documents; that no field is lost, renamed, retyped or reordered for any document needs an argument about the templates and the metaclass for every schema.", "anchors": ["soapfish/xsd2py.py:schema_to_py", "soapfish/templates/xsd.jinja2", "soapfish/templates/lib.jinja2", "soapfish/utils.py:get_type", "soapfish/xsd.py:Complex_PythonType", "soapfish/xsd.py:Schema.__init__"]}
{"id": "C72", "title": "Generated simple types enforce the facets of the XSD", "statement": "A class generated from a restriction of a simple type accepts exactly the values of the base type that the facets allow.  True for enumerations and patterns on the string types of XSD; false otherwise: lengths and white space are dropped, a pattern replaces the inherited one, and a restriction of a number type accepts everything its base accepts, whatever its facets.", "quantifier": "all schemas, all restrictions in them and all values", "why_tests_cant": "Which values are accepted is a statement about all strings and numbers, and which facets get lost on the way from the document to the class is a statement about all documents.", "anchors": ["soapfish/templates/lib.jinja2:render_xsd_Restriction", "soapfish/xsd.py:String", "soapfish/xsd.py:Decimal"]}
{"id": "C73", "title": "A generated stub posts to the address in the WSDL, and moving it keeps the resource", "statement": "The location template, scheme and host that the generator takes from the address of a port give back exactly that address when a stub is made; with another SCHEME or HOST they give the same path, query and fragment there.  True for absolute addresses without empty query, fragment or parameters and without dollar signs; otherwise the empty parts are lost, dollar signs are read as placeholders and relative addresses become unusable.", "quantifier": "all addresses, all schemes and hosts a stub may be given", "why_tests_cant": "The address passes through a URL parser, a URL printer and a template substitution; that the three together are the identity is a statement about all addresses.", "anchors": ["soapfish/utils.py:url_template", "soapfish/utils.py:url_component", "soapfish/soap.py:Stub.__init__"]}
{"id": "C74", "title": "Code generated from a WSDL document offers the operations of the document", "statement": "For every port bound to SOAP over HTTP the imported module has a service with the port's name, the target namespace, the schemas and one Method per operation with its input and output elements, parts, action and style; for a client also a stub that posts to the port's address and has a method per operation, for a server a function per operation that its Method calls.  Other ports are skipped.  True for documents whose messages have one part given by an element, whose operations have an action and a style (or a document binding) and usable, distinct names, and which have no headers; refuted for parts given by a type, no or several parts, one-way operations of servers, missing actions and inherited styles, operations named like attributes of a stub, unusable names, overloaded operations, header names, and documents with bindings for both versions of SOAP.", "quantifier": "all WSDL documents, all ports and operations in them, client and server code", "why_tests_cant": "References between services, bindings, port types and messages, and clashes between the names in the module, vary with the document; examples cover a handful of shapes.", "anchors": ["soapfish/templates/wsdl.jinja2", "soapfish/wsdl2py.py:generate_code_from_wsdl", "soapfish/utils.py:get_message_object", "soapfish/xsd.py:Method", "soapfish/soap.py:Service", "soapfish/soap.py:Stub"]}
{"id": "C75", "title": "A client and a server generated from the same WSDL document understand each other", "statement": "Calling an operation of a client generated from a WSDL document, against a server generated from the same document and hosted in WSGI, Django or Flask, runs the user's function named after the operation with a parameter equal to the one given; the call returns an object equal to what the function returned, or raises the SOAPError it raised.  True when the document tells the operation from the others of its port: by action where the action arrives, by input element elsewhere; refuted for two operations taking the same element where the action does not arrive.", "quantifier": "all WSDL documents of the supported shape, all ports and operations, all user functions, parameters and results that can be sent, all three hostings", "why_tests_cant": "Two generated modules, two envelopes and a dispatch decision lie between the call and the function; a test exercises one document and one payload.", "anchors": ["soapfish/templates/wsdl.jinja2", "soapfish/wsdl2py.py:generate_code_from_wsdl", "soapfish/soap.py:Stub.call", "soapfish/soap_dispatch.py:SOAPDispatcher.dispatch"]}
{"id": "C76", "title": "A service regenerated from its own WSDL document has the same operations", "statement": "Generating WSDL from a service and Python code from that WSDL gives a service with the same target namespace, SOAP version, schemas and methods (name, action, input and output element, style), a stub that posts to the location of the service, and for a server a function per method.  True when inputs and outputs are given by elements, names are usable in Python and the location is an absolute address; the service is renamed to the name of its port; refuted for methods given by classes (the module cannot be imported) and for locations with placeholders (the stub posts to a useless address).", "quantifier": "all services that can be described, both SOAP versions, every layout of the document, client and server code", "why_tests_cant": "Two generators and a parser are composed; the round trip can lose any attribute of any method, and a test compares one service.", "anchors": ["soapfish/py2wsdl.py:generate_wsdl", "soapfish/wsdl2py.py:generate_code_from_wsdl", "soapfish/templates/wsdl.jinja2", "soapfish/utils.py:url_template"]}
{"id": "C77", "title": "A client generated from the WSDL document of a service can call that service", "statement": "A client regenerated from the document of a running service sends, for every operation and payload, what a stub made from the service itself sends, and treats the answers the same; a call runs the function of the operation with an equal parameter and returns an equal result or raises its SOAPError.  For services without header classes.", "quantifier": "all running services with such a description, all operations, parameters, functions and transports; for the results the three hostings", "why_tests_cant": "The generated client and the running service only share the document; agreement must hold for every method and every message.", "anchors": ["soapfish/soap.py:Stub.call", "soapfish/soap.py:Stub._prepare_headers", "soapfish/soap.py:Stub._handle_response", "soapfish/py2wsdl.py:generate_wsdl", "soapfish/templates/wsdl.jinja2"]}
{"id": "C78", "title": "Modules generated from usable documents can be imported", "statement": "Take an XSD document made of simple types (restrictions with enumerations and facets), complex types (sequence, choice or all with elements and attributes that name their types, or extensions of another complex type) and top-level elements (with a named type or a complex type of their own). Suppose the class names are distinct Python names, element and attribute names are words, no two of a type get the same Python name and none is create, INDICATOR, INHERITANCE or (for elements) cls, every type name is either a type the library has (other than anyType) or defined in the document, minOccurs of single elements is 0 or 1, bases are given without prefix and without cycles or are given with a prefix and come before their extensions unless they have no base, and no type needs itself through single elements. Then xsd2py generates a module for it that can be imported, which has exactly one class per type and per element with its own type, every class of a complex type can be called without arguments, and the class of every type that is no extension has the indicator, the namespace, the elements and the attributes of the document. Without the conditions this is false: an element named cls, an embedded anyType, types that need each other and unknown or cyclic bases make generation or import fail.", "quantifier": "all documents of that form, whatever the number, size and nesting of types, all sorting functions that keep the contract of list.sort, all recursion limits above the nesting depth", "why_tests_cant": "Tests import the modules of a few documents; that every document of this shape gives an importable module depends on the order of types, on names and on nesting, of which there is no bound.", "anchors": ["soapfish/xsd2py.py: schema_to_py, _reorder_complexTypes", "soapfish/templates/xsd.jinja2", "soapfish/templates/lib.jinja2", "soapfish/utils.py: get_rendering_environment", "soapfish/xsd.py: Schema.__init__, ComplexType.__init__, Complex_PythonType, Element, ListElement"]}
{"id": "C79", "title": "Classes come back from the XSD generated from them", "statement": "Take a schema of classes without imports and includes: simple type classes derived from a type of the library, complex type classes whose fields are elements and lists (of more than one) with their types passed as classes, and top-level elements. Suppose class names start with a capital letter and are distinct Python names, tags are words other than create, INDICATOR, INHERITANCE and cls, no two fields of a class have the same tag, every field type is a type of the library that XML Schema and the generator list or a class of the schema, minOccurs of single elements is 0 or 1, and no class needs itself through single elements. Then the document py2xsd generates, laid out and transmitted in any way that keeps its content, is read by xsd2py into a module that can be imported; it has exactly one class for each class of the schema and each element with its own type; each complex class can be called without arguments and has, in the same order, the fields of the original: same tag, kind, occurrence, nillability and type (for classes of the schema the class of the same name), the same indicator, and the namespace and elementFormDefault of the schema; inherited fields become its own. The Schema object has exactly the top-level elements of the schema, with the same types and substitution groups (with the prefix sns), and a simple type derived from strings accepts exactly the strings its enumeration and pattern allow. Not kept are attribute names that differ from tags, defaults and namespaces of single fields, and lists of at most one element; with a restricted integer type or a class outside the schema the generated module cannot be imported.", "quantifier": "all schemas of that form with any number of classes, fields and any nesting, all environments of classes, all transmitted forms of the document, all sorting functions that keep the contract of list.sort, all recursion limits above the nesting depth", "why_tests_cant": "A test takes one schema there and back; the claim is about every schema, and it composes the XSD generator, the XML renderer and parser, the order of types, the templates and the import of the printed code.", "anchors": ["soapfish/py2xsd.py: generate_xsd, xsd_complexType, xsd_simpleType, create_xsd_element, generate_elements, get_xsd_type", "soapfish/xsd2py.py: generate_code_from_xsd, schema_to_py", "soapfish/utils.py: find_xsd_namespaces, get_rendering_environment", "soapfish/templates/lib.jinja2", "soapfish/xsd.py: ComplexType, Schema"]}
{"id": "C80", "title": "Regenerated classes can replace the original ones", "statement": "Take a schema as in C79 whose classes belong to it (SCHEMA is set), whose fields are called like their tags (with an underscore before keywords) and have no default and no namespace of their own, and whose own simple types are strings restricted by an enumeration or a pattern. Generate the XSD, read it back in any form that keeps the content, generate the classes and import them. Then for every class of the schema and every element, reading it with the generated class gives exactly what the original class gives, be it an instance or an error. Every value made of instances of these classes is written as the same document, or refused with the same error. If no class is derived from another one, calling a class with the same arguments gives the same instance or the same error. Consequently whatever one side writes the other side reads back as the same data, also pretty-printed and with comments and unknown elements in it. Where a class is derived from another one, the generated class is not, and an assignment of a derived instance that worked is refused.", "quantifier": "all schemas of that form, all environments of classes, all XML elements (valid or not), all values, all keyword arguments, all nesting depths", "why_tests_cant": "Equality of two readers on every XML element, and of two writers on every value, for every schema, cannot be sampled; it needs an agreement argument over all class graphs.", "anchors": ["soapfish/py2xsd.py: generate_xsd", "soapfish/xsd2py.py: generate_code_from_xsd, schema_to_py", "soapfish/templates/lib.jinja2", "soapfish/xsd.py: ComplexType.parse_xmlelement, ComplexType.render, ComplexType.__new__, ComplexType.__init__, ComplexType.accept"]}
{"id": "C81", "title": "The module generated from a service's WSDL is complete", "statement": "Take a service with one schema that can be reproduced (C79) and methods whose inputs and outputs are elements (C76), generate its WSDL document, transmit it in any layout, and generate a client or server module from it. The module can be imported. It has the classes of the schema with their fields (inherited ones included), under their own names unless the service uses the name itself; the Schema object has exactly the elements of the schema, with their types and substitution groups; the service refers to that Schema and has the methods of the original service with the same operation names, actions, elements and styles; a client has a stub that posts to the service's location and has one method per operation; a server has one function per operation. If the classes lose nothing in the document (C80), the classes of the module read, write and build exactly as the original ones. A class called like an operation is replaced by the operation's function in the server module.", "quantifier": "all services of that form with any number of methods, classes and elements, all layouts of the document, client and server, both SOAP versions, all sorting functions that keep the contract of list.sort", "why_tests_cant": "A test generates one module from one document. The claim is about every service, and it joins the generated classes with the generated service statements in one namespace, where any name may shadow another.", "anchors": ["soapfish/wsdl2py.py: generate_code_from_wsdl, reorder_schemas, schema_name", "soapfish/py2wsdl.py: generate_wsdl", "soapfish/templates/wsdl.jinja2", "soapfish/templates/lib.jinja2", "soapfish/utils.py: find_xsd_namespaces"]}
{"id": "C82", "title": "A generated client works against the service it was generated from", "statement": "Take a service with one schema whose classes lose nothing in its WSDL document (C79, C80), whose arguments and results are elements with a class of the schema or a type of the library, and which uses no headers. Generate the client module from the document in any layout. A process that has only this module, its classes, its Schema and its stub, calls an operation exactly as a process with the original classes and the original service description does: for every transport, every operation name and every parameter built from classes of the schema it posts the same request, and from every answer it gets the same object or raises the same error. Consequently a call of the running service reaches the function of the service with a parameter equal to the one passed in; what that function returns is returned to the caller, and a SOAPError it raises is raised for the caller with the same code and message.", "quantifier": "all services of that form with any number of methods, classes and nesting, all layouts of the document, all transports and answers (well-formed or not), all parameters built from classes of the schema, both SOAP versions, WSGI, Django and Flask hosting", "why_tests_cant": "A test makes one call with one generated client. The claim compares two programs, the original one and the generated one, over every service, parameter and answer of the server.", "anchors": ["soapfish/soap.py: Stub.call", "soapfish/wsdl2py.py: generate_code_from_wsdl", "soapfish/py2wsdl.py: generate_wsdl", "soapfish/soap_dispatch.py: SOAPDispatcher.dispatch", "soapfish/templates/wsdl.jinja2"]}
{"id": "C83", "title": "A generated server answers as the service it was generated from", "statement": "Take a service as in C82 whose functions are called by the names of the operations and return instances of classes of its schema, in a response object or not, SOAP faults, or raise. Generate the server module from its WSDL document in any layout and give it the bodies of the original functions. Its dispatcher gives every request, well-formed or not, the answer of the original dispatcher, with the same hooks and any middlewares that give answers of the same kind, and leaves the same state of the application. With the client generated from the document on one side and the server generated from it on the other, a call has the outcome and the effects it has between the original programs.", "quantifier": "all services of that form, all requests, application states, functions, hooks and middlewares of that kind, all layouts of the document, all parameters of calls, WSGI, Django and Flask hosting", "why_tests_cant": "A test sends a few requests to one generated server. The claim is about all requests, including invalid ones, and every service.", "anchors": ["soapfish/soap_dispatch.py: SOAPDispatcher.dispatch", "soapfish/middlewares.py", "soapfish/wsdl2py.py: generate_code_from_wsdl", "soapfish/templates/wsdl.jinja2", "soapfish/soap.py: Stub.call"]}
{"id": "C84", "title": "Modules generated from several XSD documents are complete and linked", "statement": "Take an XSD document and the documents, in the same directory, that it includes and imports directly or by way of others. Suppose every document that is included or imported is there and, when imported, has the namespace given for it; that no document comes back to itself; that no two types in them get the same class name and none the name of a Schema variable; and that each document is usable in the sense of C78, where it may use the types of the documents it reaches. Then xsd2py generates one module for all of them that can be imported. It has exactly the classes of the types and own-typed elements of these documents, every class of a complex type can be called without arguments, and the class of every type that is no extension has the indicator, the elements, the attributes and the namespace of its own document. If no two of the namespaces and file names have the same five hexadecimal digits, there is exactly one Schema object per document, however often it is included or imported; its imports are the Schema objects of the namespaces it imports, its includes those of the files it includes, and its location is the one under which a service serves the file. Without the conditions this is false: documents that import each other and imports without schemaLocation give modules that cannot be imported, a document without targetNamespace cannot be included, and types of the same name in two namespaces give two classes of one name.", "quantifier": "all sets of documents of that form, whatever their number, size and the shape of the graph of includes and imports; all environments (working directory, hash digits, URL joining, sorting), all interpreters", "why_tests_cant": "a test generates code from one fixed set of files; which document is written first, which variable is bound when it is used and which types are known depend on the whole graph", "anchors": ["soapfish/xsd2py.py: generate_code_from_xsd, schema_to_py, resolve_import, rewrite_paths", "soapfish/utils.py: get_rendering_environment (schema_name, url_template, resolve_import), resolve_location", "soapfish/templates/xsd.jinja2", "soapfish/templates/lib.jinja2: render_Schema", "soapfish/xsd.py: Schema.__init__"]}
{"id": "C85", "title": "What an object writes is valid against the XSD generated for its class", "statement": "Take a schema whose XSD document can be generated and whose type and element names are distinct. Its classes have elements and lists in the target namespace of the schema; the lists have minOccurs and maxOccurs; the types are String, AnyURI, Boolean, Decimal, Double, Float, the integers, Date, Time and DateTime, passed as classes or as instances with facets, string classes of the schema with an enumeration and a pattern, and classes of the schema. Take an object of the type of an element of the schema in which nothing required is missing: every required element has a value, of a choice exactly one element has one, the values are those their types accept, numbers are such that Python writes no exponent, times are at most 14 hours off UTC, strings with a pattern do not end in a newline. If the object can be written as that element at all, then the document written is valid against the generated XSD document, by the rules of XML Schema: the root is the declared element, the children are those of the sequence, choice or all group in number, order and name, texts are in the lexical space of the type and meet the facets, and nil elements are nillable. It stays valid after serialisation and pretty-printing. Without the conditions this is false: a ListElement without bounds, as is the default, is written any number of times and described as exactly one; a required element without value is left out; of a choice everything given is written; a Decimal writes True and 1e-07; a date may be 15 hours off UTC.", "quantifier": "all such schemas, classes and objects, of any size and depth; all interpreters; all pretty-printed layouts", "why_tests_cant": "the two sides are written by different code, the description by py2xsd and the documents by render; a test validates one document against one schema", "anchors": ["soapfish/py2xsd.py: generate_xsd, build_schema, generate_elements", "soapfish/xsd.py: ComplexType.render, ComplexType.xml, Element.render, ListElement.render, SimpleType.render, xmlvalue methods", "soapfish/xsdspec.py"]}
{"id": "C86", "title": "A class reads every document that is valid against the XSD generated for it, as what it says", "statement": "Take a schema as in C85 in which no class is a choice, fields have no default, children of one field cannot be taken for those of another, strings have no other facets than a pattern and, where the XSD document shows it, an enumeration, decimals have none, and integers only bounds other than 0. Take any document with the name of an element of the schema that is valid against the generated XSD document, whoever wrote it: with white space between elements, the elements of an all group in any order, integers like +07, times with or without fraction and time zone; only booleans must not be spelled 0 or 1. Then the class of that element reads it without an error. The object has the text of each element as the value of its type stands for, None for an absent or empty element, nil for a nil element, the items of a list in order, and the objects of nested elements; and no two values fit that description. Without the conditions this is false: a boolean spelled 1, a negative number where minInclusive is 0, a string longer than maxLength, 2.5 where fractionDigits is 2 and an integer outside its enumeration are valid and refused, and of a choice nothing is read.", "quantifier": "all such schemas, all documents valid against the XSD document generated for them, of any size and depth; all interpreters whose float reads decimal numerals", "why_tests_cant": "the XSD document is what partners of the service implement against; the documents they may send are infinitely many and most are never written by soapfish itself", "anchors": ["soapfish/py2xsd.py: generate_xsd, build_schema, generate_elements", "soapfish/xsd.py: ComplexType.parse_xmlelement, ComplexType._find_subelement, Element.parse, ListElement.parse, SimpleType.parse, pythonvalue methods", "soapfish/xsdspec.py"]}
{"id": "C87", "title": "A WS-Addressing reply answers its request", "statement": "wsa.fill_header(dst, src) turns any wsa.Header object into the answer to the request whose header is src: Action is the Action of src followed by 'Response', RelatesTo is the MessageID of src, MessageID is a new identifier, To is the anonymous address, and ReplyTo is left alone. Without src only MessageID and To change. If src has no Action there is a TypeError and dst is as it was. On the wire such a header is exactly the WS-Addressing elements in their namespace and in order, under SOAP 1.1 and 1.2. End to end, if a client calls an operation with a wsa.Header and the handler returns a new header filled in from the one it received, the client gets the returned object and a header that relates to the identifier it sent. The switch use_wsa=True of Service does not work: unless both header classes are given as well, the constructor raises AttributeError.", "quantifier": "all headers, identifiers and actions; all services, handlers, application states, adapters and messages as in C51", "why_tests_cant": "Correlation must hold for every identifier and every Action, through serialization, transport, parsing and the handler; a test checks one pair of messages.", "anchors": ["soapfish/wsa.py:Header", "soapfish/wsa.py:fill_header", "soapfish/soap.py:Service.__init__", "soapfish/soap.py:Stub.call", "soapfish/soap_dispatch.py:SOAPDispatcher.dispatch"]}
{"id": "C88", "title": "An operation runs the function routed to it last", "statement": "Take any history of calls of Service.route and of the decorators they returned, in any order: decorators used late, several times or never, unknown operations in between. Afterwards the method found for an operation is the same object as before with the function that was bound to that operation last, or its old function if none was; nothing else of any method changes, and of several methods with one operation name only the first is bound. Naming an operation the service does not have raises StopIteration at the call of route and changes nothing; a decorator returns the function it is given. Every function a dispatcher over that service then calls, under any middlewares and hooks, is the one bound last to an operation whose input type the argument has, and the function a request reaches is the one bound last to the method of that request.", "quantifier": "all lists of methods, all histories of any length, all dispatchers, states and requests", "why_tests_cant": "Histories are unbounded and decorators can be kept and interleaved; a test decorates each function once, right away.", "anchors": ["soapfish/soap.py:Service.route", "soapfish/soap.py:Service.get_method", "soapfish/soap_dispatch.py:call_method"]}
{"id": "C89", "title": "The documents a dispatcher serves are linked to each other", "statement": "Making a SOAPDispatcher for a service with one schema yields a dispatcher whose WSDL and XSD documents form a closed web: the WSDL document refers to exactly the links '?xsd=<location>' of the schemas its schema imports or includes, each XSD document to those of its own imports and includes, and a GET request for such a link answers with the XSD document of that schema, however deep the imports and whether or not they form circles; a location of no schema answers 'not_found'. The validator made at the same time looks references up among exactly these schemas. This needs exactly one schema in the service (none or several: never made), a location for each import (else never made) and locations that mean themselves in a query string (one with a plus sign leads nowhere).", "quantifier": "every service, every graph of schemas with any depth and circles, every set of describable classes, every middleware and hook list, every request and location", "why_tests_cant": "A test tries one small set of schemas; that every link in every document leads to the right document is a statement about all import graphs, including circular ones.", "anchors": ["soapfish/soap_dispatch.py:SOAPDispatcher.__init__", "soapfish/soap_dispatch.py:SOAPDispatcher._rewrite_locations", "soapfish/soap_dispatch.py:SOAPDispatcher.handle_xsd_request", "soapfish/py2xsd.py:schema_validator", "soapfish/utils.py:walk_schema_tree"]}
{"id": "C90", "title": "The published schema is the contract between client and server", "statement": "A dispatcher validates requests against the XSD document it generates from its service's schema. An object of the input element's class that has all that is required and can be sent is never turned away: the call of the stub gets to the function, which sees an equal object, and the result comes back to the caller. A request of any other client whose body is valid against the same document (with booleans spelled true and false) is not turned away either: the function is called once, with what the document says. And an object the function returns, if it has all that is required, is sent in a document that is valid against the published schema, pretty-printed or not. A SOAP header sent with the call reaches the function as well.", "quantifier": "for every service with one schema, every class of it, every object, every valid document, every way of hosting (WSGI, Django, Flask), every state of the application", "why_tests_cant": "the generated schema, the validator, rendering and parsing must agree on every class, every object and every document; tests compare single messages", "anchors": ["soapfish/soap_dispatch.py:SOAPDispatcher.__init__", "soapfish/soap_dispatch.py:SOAPDispatcher._validate_body", "soapfish/py2xsd.py:schema_validator", "soapfish/py2xsd.py:generate_xsd", "soapfish/xsd.py:ComplexType.xml", "soapfish/xsd.py:ComplexType.parsexml", "soapfish/soap.py:Stub.call"]}
{"id": "C91", "title": "Generated services declare the header blocks of the WSDL", "statement": "In the module generated from a WSDL document, for a client or a server, the Method of every operation has a header class for its input exactly when the binding names header blocks for the input, and likewise for the output; the class has exactly one field per block, called like the message part and being the Element object that the schema declares for the part's element. The rest of the service is as in C74, and no other class gets new fields. If no element is used under two part names, the library finds each block in its class under that name with the declaration of the schema. Excluded: a message used both as input and output with different blocks, blocks from several schemas, parts given by types, names that are not identifiers; each is shown to fail, as is an element used under two part names.", "quantifier": "every WSDL document whose ports, operations and header blocks are of the usable shape, with any number of schemas, services, ports, operations and blocks; every state that a program can reach before the module's service statements run", "why_tests_cant": "The classes are made while the module runs and Element objects are shared and renamed, so later operations can disturb earlier ones; tests look at a few WSDL files.", "anchors": ["soapfish/templates/wsdl.jinja2", "soapfish/wsdl.py:get_message_header", "soapfish/wsdl.py:get_message_object", "soapfish/utils.py:schema_select", "soapfish/wsdl2py.py:generate_code_from_wsdl", "soapfish/xsd.py:Complex_PythonType", "soapfish/xsd.py:Method"]}
{"id": "C92", "title": "Header blocks reach the other side of a generated pair", "statement": "For a client module and a server module generated from the same WSDL document with header blocks, calling an operation of the client with a header runs the user's function named after the operation with an equal parameter and an equal header on the request (no header where the document gives the operation none), and the call returns a result and a header equal to the ones the function answered with, or raises the SOAPError that it raised. This is C75 with headers. The blocks on the wire are however not the elements the WSDL names: they are called like the message part and are in the namespace of the envelope (refuted), so only soapfish reads them.", "quantifier": "every WSDL document with header blocks of the usable shape, every operation, parameter, header, result and user function, any program state before the modules are imported, and every way of hosting the server", "why_tests_cant": "The claim spans code generation, two imports, writing, transport, routing and reading, for all documents and values; a test fixes one document and one call.", "anchors": ["soapfish/templates/wsdl.jinja2", "soapfish/wsdl2py.py:generate_code_from_wsdl", "soapfish/soap.py:Stub.call", "soapfish/soap.py:Stub._handle_response", "soapfish/soap_dispatch.py:SOAPDispatcher.dispatch", "soapfish/soap11.py:Envelope.response", "soapfish/soap12.py:Envelope.response", "soapfish/soap11.py:Header.parse_as"]}
{"id": "C93", "title": "Envelopes of any SOAP implementation are read for what they carry", "statement": "Whatever a peer puts around it - white space, comments, further attributes and elements, any order of the parts of a fault - the server finds the Header and the message in the envelope of a request, and requests that differ only in their envelopes run the same function with the same arguments; the client returns the result or raises the fault (code, message, actor) that the envelope of a reply carries. An envelope of another version of SOAP, and header blocks marked mustUnderstand that nobody understands, are turned away.", "quantifier": "every envelope document with at most one Header and one Body and without processing instructions, every message in it, also one whose element is called message or Fault, every service, header class, operation and transport", "why_tests_cant": "Other implementations lay out envelopes in ways without number; tests try the ones of the libraries at hand.", "anchors": ["soapfish/soap_dispatch.py: SOAPDispatcher._parse_soap_content, _find_handler_for_request, _validate_header, _parse_header", "soapfish/soap.py: Stub._handle_response", "soapfish/soap11.py: Envelope, Body, Header, parse_fault_message", "soapfish/soap12.py: Envelope, Body, Fault, Code, Reason, parse_fault_message", "soapfish/xsd.py: ComplexType.parse_xmlelement, _is_matching_element"]}
{"id": "C94", "title": "Types can be used for the first time by several threads", "statement": "An Element resolves its type when it is first used. Whatever several threads do with the Element objects and classes of a program (use a field, create objects) and however they take turns, no thread raises an exception because of it, and each works with the type the Element was given: the instance itself, an instance of the class, or what the dotted name stands for. No thread has to wait for another. Required: types given by name have been used once before the threads start (creating the Schema object does that).", "quantifier": "all programs of Element objects and classes, all numbers of threads, all schedules of reads and writes of shared attributes", "why_tests_cant": "The outcome depends on the interleaving; a test sees one schedule.", "anchors": ["soapfish/xsd.py:Element._evaluate_type", "soapfish/xsd.py:import_type", "soapfish/xsd.py:ComplexType.__new__"]}
{"id": "C95", "title": "Classes defined in parallel keep the order of their fields", "statement": "The creation numbers of the Element objects that one thread makes rise in the order in which it makes them, also while other threads make Element objects; so the fields of a class are written in the order in which they are declared.", "quantifier": "all numbers of threads and of Element objects, all schedules", "why_tests_cant": "The outcome depends on the interleaving; a test sees one schedule.", "anchors": ["soapfish/xsd.py:Element.__init__", "soapfish/xsd.py:ComplexTypeMetaInfo"]}
{"id": "C96", "title": "Parallel appends respect maxOccurs", "statement": "When several threads append to the same list field, the list never has more than maxOccurs items, and every value is either in the list or was refused with ValueError.", "quantifier": "all bounds, all lists, all numbers of threads and values, all schedules", "why_tests_cant": "The outcome depends on the interleaving; a test sees one schedule.", "anchors": ["soapfish/xsd.py:TypedList.append"]}
{"id": "C97", "title": "Documents", "statement": "render() of a Document class writes its root exactly as xml() of the root object writes it under the name of the attribute, so the class of the root reads it back. parsexml() of a Document class, over any sequence of calls, returns None or raises, and leaves what the last readable text says as an attribute of the class; the fields of existing classes stay as they are, but a class derived from it afterwards has lost the field. NAMESPACE, the element's own namespace and its tagname never appear in the tag of the root.", "quantifier": "all Document classes whose root is an Element of a complex type, all instances, all sequences of texts, and all programs that define classes before and after", "why_tests_cant": "The equality with xml() ranges over all objects, and what parsexml leaves behind depends on the whole history of calls and class definitions.", "anchors": ["soapfish/xsd.py: Document.render, Document.parsexml, Document.NAMESPACE, ComplexTypeMetaInfo"]}
{"id": "C98", "title": "Validation by the schema argument", "statement": "parsexml(text, schema) and xml(..., schema) return what they return without a schema, or raise; they return only what is valid against the schema, and valid input is never refused on account of the schema. A Schema object given to parsexml stands for the XSD document generated from it. A complete object is written and read back under its own schema, and any valid text is read as what it says. xml does not accept the Schema object that parsexml accepts.", "quantifier": "all classes, objects, texts and schemas (for the last claims: the describable and readable ones of C85 and C86), and every validator that accepts what is valid", "why_tests_cant": "Validity, reading and writing are each defined over all documents; the claim relates them for every one.", "anchors": ["soapfish/xsd.py: ComplexType.parsexml, ComplexType.xml", "soapfish/py2xsd.py: generate_xsd"]}
{"id": "C99", "title": "The command line programs and the files", "statement": "xsd2py, wsdl2py, py2wsdl and py2xsd write their result into the output file, or to the standard output if none is given, and change no other file. wsdl2py generates for the one target it was told; its options may stand before and after the paths but not between them. Wherever a run is interrupted, the output file is as before, empty, or a beginning of the result. A run that fails leaves the output file as it was: this is wrong, it is emptied even before the command line is refused, so a document given as its own output is lost.", "quantifier": "all command lines, contents of files, path aliases, generators and points of interruption", "why_tests_cant": "The claim is about every command line and every point at which the process may die, and about all files the program must leave alone.", "anchors": ["soapfish/xsd2py.py: main", "soapfish/wsdl2py.py: main", "soapfish/py2wsdl.py: main", "soapfish/py2xsd.py: main", "soapfish/utils.py: open_document"]}
{"id": "C100", "title": "Type names mean what their prefixes mean where they stand", "statement": "In code generated from WSDL and XSD documents a type name becomes a class of soapfish.xsd exactly if its prefix stands for XML Schema at its place in the document. True if no prefix is XML Schema's in one schema or document and another's in another one; false otherwise: only the last schema that declares a prefix counts, and the prefixes of imported documents are added to those of the importing one.", "quantifier": "all documents with any number of schemas, all prefix declarations on their roots and schemas, all imported documents and all type names", "why_tests_cant": "Every combination of declarations in any number of schemas and documents would have to be tried.", "anchors": ["soapfish/utils.py: find_xsd_namespaces, get_rendering_environment.get_type", "soapfish/wsdl2py.py: merge_imports, generate_code_from_wsdl"]}
{"id": "C101", "title": "What str() shows of objects and errors", "statement": "str() of an object returns a text as long as its objects are not nested deeper than the recursion limit. The text names every element field with the text of its value. It depends on nothing else: XML attributes, groups, contents and the element the object was read from are not shown. str() of a SOAPError tells its code, message and actor, as long as the code has no ], the message has no ; and the actor is not called None; otherwise different errors (and different objects) can print alike.", "quantifier": "all classes, all objects (however nested and however set), all codes, messages and actors", "why_tests_cant": "Printing is what logs and error reports rely on; that it never fails and leaves out no element field must hold for every class and every nesting, not only for the few classes in tests.", "anchors": ["soapfish/xsd.py: ComplexType.__str__", "soapfish/core.py: SOAPError.__str__"]}
{"id": "C102", "title": "Which schema a class belongs to, and what that changes", "statement": "After any sequence of Schema(...) calls, some of which may raise, a class belongs to the schema of the last call that names it, in one of its lists or through an element that was given an instance of it; a class no call names belongs to the schema of its nearest base that is named. An Element keeps the namespace it was made with, and otherwise gets that of the first schema that has it. Reading documents and making objects do not depend on which schemas were made. A schema that names none of the classes involved does not change what objects are written as; one that names a class again does, for objects that exist already.", "quantifier": "every sequence of Schema calls, every class with every list of bases, every Element, document, object and argument", "why_tests_cant": "The schema is a mutable attribute of the class, so what an object is written as depends on the whole history of the process; tests see one order of imports.", "anchors": ["soapfish/xsd.py: Schema.__init__", "soapfish/xsd.py: ComplexType.render", "soapfish/xsd.py: ComplexType.SCHEMA", "soapfish/xsd.py: Element.namespace"]}
{"id": "C103", "title": "XSDDate values compare by day and zone", "statement": "Two XSDDates are equal iff they have the same year, month, day and time zone, and equal ones are written the same; equality with other objects is consistent (an equivalence); converting a plain date to an XSDDate and back, or an XSDDate to a plain date and back, loses nothing.", "quantifier": "every XSDDate, date, datetime and other value", "why_tests_cant": "all dates, zones and kinds of values", "anchors": ["soapfish/xsd_types.py: XSDDate.__eq__, XSDDate.from_datetime_date, XSDDate.as_datetime_date"]}
