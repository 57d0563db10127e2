{"id": "C01", "title": "Name ordering is a strict total order", "statement": "Comparing two names with names.Compare gives the word-by-word lexicographic order of their words (shorter prefix first); the induced 'less' relation is irreflexive, transitive and total up to having the same words, and swapping the arguments negates the result.", "quantifier": "all pairs and triples of names, any number and content of words", "why_tests_cant": "Order axioms quantify over all triples of names; a sort driven by a comparator that violates one of them for a rare triple silently yields a different order of the generated code.", "anchors": ["pkg/names/name.go: Compare, Names.Less"]}
{"id": "C02", "title": "Name equality is an equivalence that fixes every rendering", "statement": "Name.Equals is reflexive, symmetric and transitive (nil included); equal names render identically in every style (String, Snake, Camel, upper, lower) and compare as 0; two names compare as 0 exactly when the texts of their words are the same.", "quantifier": "all names, including nil", "why_tests_cant": "Requires congruence for every rendering function and every name, not a sample.", "anchors": ["pkg/names/name.go: Equals, String, Snake, Camel, LowerJoined, UpperJoined, CapitalizedJoined", "pkg/names/words.go: Word.Equals"]}
{"id": "C03", "title": "Separator parsing and string form are inverse", "statement": "Splitting any text with a one-character separator and joining the resulting words again gives back the text; splitting the joined form of words that don't contain the separator gives back those words. In particular service and version directory names survive parsing unchanged, and distinct directory names never collide on the same lookup key.", "quantifier": "all texts and all word lists", "why_tests_cant": "Round trips over all strings, including empty segments and leading or trailing separators.", "anchors": ["pkg/names/parser.go: ParseUsingSeparator", "pkg/names/name.go: String", "pkg/language/reader.go: loadService, loadVersion"]}
{"id": "C04", "title": "Camel case parsing recovers the words", "statement": "For every sequence of words in which each word is either an ordinary word (a letter or digit followed by one or more lower case letters) or an initialism (two or more upper case letters or digits, optionally with a plural s) and no initialism without plural is directly followed by another initialism or by a two letter word ending in s, rendering the name in camel case and parsing it by case gives the same words back.", "quantifier": "all word sequences of any length satisfying the condition", "why_tests_cant": "There are unboundedly many combinations of word kinds and boundaries; the code has a separate branch for each kind of boundary.", "anchors": ["pkg/names/parser.go: ParseUsingCase, parseWord", "pkg/names/case.go: isUpper, isLower"]}
{"id": "C05", "title": "Camel case parsing never loses or invents characters", "statement": "For every identifier that starts with an upper case letter or digit and contains only letters and digits, the camel case rendering of the parsed name is the identifier itself; consequently different identifiers give different words, different lookup keys and never compare as equal. (Identifiers that start with a lower case letter or contain an underscore are accepted by the grammar but violate this: the whole text is repeated.)", "quantifier": "all identifiers of that form", "why_tests_cant": "Property over all strings; the failing branch is only reached by inputs the existing table of examples does not contain.", "anchors": ["pkg/names/parser.go: ParseUsingCase"]}
{"id": "C06", "title": "Concatenating names concatenates words and renderings", "statement": "names.Cat is associative with the empty name as unit, its words are the words of the arguments in order, the camel rendering of the result is the concatenation of the camel renderings, and the snake rendering is the underscore-join of the non-empty renderings.", "quantifier": "all lists of names", "why_tests_cant": "Universal algebraic law.", "anchors": ["pkg/names/name.go: Cat, Camel, Snake, Append, Insert"]}
{"id": "C07", "title": "Enumeration order of concepts is deterministic", "statement": "The sequence of services, versions, types, resources, attributes, methods, locators and enum values handed to the generators depends only on the set of declared things: neither the order of declaration nor the iteration order of the internal maps can change it, as long as names are distinct; the sequence is sorted by name and contains each element exactly once.", "quantifier": "all insertion orders, all map iteration orders, all sets of names", "why_tests_cant": "Go map iteration order is random and declaration order is up to the user; tests see only some orders.", "anchors": ["pkg/concepts/version.go: Types, Resources, Errors", "pkg/concepts/type.go: AddAttribute, AddValue", "pkg/concepts/resource.go: AddMethod, AddLocator", "pkg/concepts/model.go", "pkg/concepts/service.go", "pkg/concepts/error.go: ErrorSlice.Less"]}
{"id": "C08", "title": "Lookup by name returns what was last added", "statement": "After adding a type, resource or error to a version (or a version to a service, a service to a model), looking up its name returns it, and looking up any name with a different string form gives the same answer as before.", "quantifier": "all histories of additions and all names", "why_tests_cant": "Statement about arbitrary operation sequences.", "anchors": ["pkg/concepts/version.go: AddType, FindType, AddResource, FindResource, AddError, FindError", "pkg/concepts/service.go", "pkg/concepts/model.go"]}
{"id": "C09", "title": "Every version knows the built-in types", "statement": "A new version contains exactly Boolean, Integer, Long, Float, String, Date and Interface, each with the right kind and each together with its list type whose element it is, and all of them are owned by the version; built-in type predicates (IsBoolean, IsInteger, ...) recognise exactly the corresponding built-in type.", "quantifier": "all versions, all names looked up", "why_tests_cant": "Says that no other name is found and that the predicates exclude every other type.", "anchors": ["pkg/concepts/version.go: NewVersion, addScalarType, addInterfaceType", "pkg/concepts/type.go: IsBoolean ... IsDate"]}
{"id": "C10", "title": "Every method has exactly one category", "statement": "Each method is exactly one of Add, AsyncDelete, AsyncUpdate, Delete, Get, List, Post, Search, Update or action, determined by its name only.", "quantifier": "all method names", "why_tests_cant": "Exclusive and exhaustive classification over all names.", "anchors": ["pkg/concepts/method.go: IsAdd ... IsAction"]}
{"id": "C11", "title": "A model is returned exactly when no error was reported", "statement": "Read returns a model and no error when, and only when, no error has been reported; warnings and informational messages never make it fail; with n errors the returned error states the number of errors.", "quantifier": "all sequences of reported messages and all inputs", "why_tests_cant": "Must hold for every sequence of reports made during the run.", "anchors": ["pkg/language/reader.go: Read", "pkg/reporter/reporter.go: Infof, Warnf, Errorf, Errors"]}
{"id": "C12", "title": "Every undefined type or resource is reported", "statement": "When a version is read, a name used as a type (or as a locator target) and never declared in that version is reported as an error, and a name that is declared is never reported as undefined, whatever the order of uses and declarations. (Names of list and map types, like FooList, are excluded: whether a plain use of one of them is reported depends on the order.)", "quantifier": "all sequences of declarations and references of one version", "why_tests_cant": "Order of references and definitions is arbitrary (forward references, several files).", "anchors": ["pkg/language/reader.go: ExitPlainTypeReference, ExitListTypeReference, ExitMapTypeReference, ExitClassDecl, ExitEnumDecl, ExitStructDecl, addUndefinedType, removeUndefinedType, Read"]}
{"id": "C13", "title": "A type, resource or error can't be defined twice", "statement": "A second declaration of the same type, resource or error name in a version is always reported, a single one never is, and the first one is kept with the contents of its declaration. Built-in types can't be declared again. (Types that take the name of a list or map type used in the version are excluded.)", "quantifier": "all sequences of declarations and references of one version", "why_tests_cant": "Universal over interleavings of references and definitions.", "anchors": ["pkg/language/reader.go: ExitEnumDecl, ExitClassDecl, ExitStructDecl, ExitResourceDecl, ExitErrorDecl"]}
{"id": "C14", "title": "Undefined names of one version don't affect another version", "statement": "Whether a name is reported as undefined or doubly defined in one version, and what the version contains, must not depend on the declarations made in other versions: reading several versions together succeeds exactly if each of them can be read alone, with the same reports and the same contents of each version. (False in general: the sets of undefined names are shared. True when the versions are different directories and no name that a version uses and doesn't declare is declared by a version loaded after it.)", "quantifier": "all inputs with any number of services and versions", "why_tests_cant": "Needs a pair of versions that share a name that is undefined in one of them.", "anchors": ["pkg/language/reader.go: undefinedTypes, undefinedResources, addUndefinedType"]}
{"id": "C15", "title": "Every type has a list type after reading", "statement": "After a model has been read, for every type of every version that is not itself a list there is a list type in the same version whose element is that type, unless the source declares a type that takes the name of the list, and no existing type is changed or lost by this step.", "quantifier": "all versions with any set of types, any iteration order", "why_tests_cant": "Property over all sets of types, with types being added while iterating.", "anchors": ["pkg/language/reader.go: Read (132-149)"]}
{"id": "C16", "title": "Parameter directions follow the declaration", "statement": "A parameter is an input iff declared in, an output iff declared out, both if both; without any direction it is an output only.", "quantifier": "all lists of direction keywords", "why_tests_cant": "All sequences of directions, including repetitions.", "anchors": ["pkg/language/reader.go: ExitMethodParameterDecl", "pkg/concepts/parameter.go"]}
{"id": "C17", "title": "Accepted Add methods have exactly one body and nothing unexpected", "statement": "The semantic check of an Add method reports no error iff: every parameter is a scalar or a struct, exactly one of them is a struct, and that one is named 'body', is input and output and has no default (scalars aren't checked further), and every default matches its type.", "quantifier": "all parameter lists", "why_tests_cant": "Exact characterisation needs both soundness and completeness over all parameter lists.", "anchors": ["pkg/language/checks.go: checkAdd"]}
{"id": "C18", "title": "Accepted Get, Delete and Update methods have the shape the clients expect", "statement": "The semantic checks of Get, Delete, Update (and their async variants) report no error iff the parameters satisfy the documented conditions (number, direction and type of body parameters; query parameters scalar, input only), so that generated clients can always find the body parameter they need.", "quantifier": "all parameter lists", "why_tests_cant": "Exact characterisation over all parameter lists.", "anchors": ["pkg/language/checks.go: checkGet, checkDelete, checkUpdate", "pkg/generators/golang/clients_generator.go: generatePollMethodSource"]}
{"id": "C19", "title": "Accepted List and Search methods have well formed paging parameters", "statement": "The semantic checks of List and Search report no error iff the page, size, total and items parameters that exist have the required type, direction and default, there are items, and the remaining parameters are acceptable; missing paging parameters only produce warnings.", "quantifier": "all parameter lists", "why_tests_cant": "Exact characterisation over all parameter lists.", "anchors": ["pkg/language/checks.go: checkList, checkSearch, checkRequestParameter, checkResponseParameter"]}
{"id": "C20", "title": "Accepted Post methods have one request and one response body", "statement": "The semantic check of a Post method reports no error iff the number, directions and types of its parameters are as required.", "quantifier": "all parameter lists", "why_tests_cant": "Exact characterisation over all parameter lists.", "anchors": ["pkg/language/checks.go: checkPost"]}
{"id": "C21", "title": "Default values match the parameter type", "statement": "A boolean, integer or string default is accepted iff the type of the parameter is the Boolean, Integer or String type of its version respectively; parameters without default are always accepted.", "quantifier": "all parameters and default values", "why_tests_cant": "All combinations of type and literal.", "anchors": ["pkg/language/checks.go: checkParameter"]}
{"id": "C22", "title": "Locator loops are detected exactly", "statement": "For a version whose locators all have targets, the loop check terminates, and reports an error iff some cycle of locators is reachable from the root resource.", "quantifier": "all locator graphs (any number of resources and locators)", "why_tests_cant": "Reachability and termination over arbitrary graphs.", "anchors": ["pkg/language/checks.go: checkLocatorLoops, checkLocatorPathLoops, reportLocatorPathLoop"]}
{"id": "C23", "title": "Path enumeration is complete, duplicate free and terminates", "statement": "When there is no reachable loop, Version.Paths terminates and returns every non-empty sequence of locators that starts at the root and follows targets, each exactly once, shorter ones first; all non-empty prefixes of a returned path are returned too.", "quantifier": "all loop-free locator graphs", "why_tests_cant": "Unbounded graphs; an aliasing mistake here was a real bug (0.0.23).", "anchors": ["pkg/concepts/version.go: Paths"]}
{"id": "C24", "title": "Every input goes either to the query or to the body", "statement": "For every method, the request parameters are split into query parameters and body parameters without loss or duplication, keeping the declared order; actions send everything in the body, other methods send exactly the scalars in the query; response parameters are exactly the outputs.", "quantifier": "all methods and parameter lists", "why_tests_cant": "Partition law over arbitrary parameter lists.", "anchors": ["pkg/http/binding_calculator.go: RequestParameters, RequestQueryParameters, RequestBodyParameters, ResponseParameters, ResponseBodyParameters"]}
{"id": "C25", "title": "HTTP method, status and segment depend on the category as documented, and docs agree with clients", "statement": "The HTTP verb, default status and URL segment of a method are given by its category (actions have their own segment, others none), two methods without their own segment on one resource only share the verb when they are both in one of the groups Add/Post/Search, Get/List, Update/AsyncUpdate and Delete/AsyncDelete, and the documentation generator shows the same verb that the generated clients use.", "quantifier": "all methods", "why_tests_cant": "Agreement of two independent implementations for every method name.", "anchors": ["pkg/http/binding_calculator.go: Method, DefaultStatus, MethodSegment", "pkg/generators/docs/docs_generator.go: httpMethod"]}
{"id": "C26", "title": "Wire names honour annotations with documented precedence", "statement": "The name of an attribute, query parameter, body parameter, enum value, locator, method, service or version on the wire is the one given by the annotations in the documented precedence and otherwise the snake case of the name; an empty annotation counts as absent.", "quantifier": "all combinations of annotations", "why_tests_cant": "All combinations of present, missing, duplicated and empty annotations.", "anchors": ["pkg/http/binding_calculator.go: AttributeName, QueryParameterName, BodyParameterName, EnumValueName, ...", "pkg/annotations/annotations.go", "pkg/concepts/annotated.go: GetAnnotation"]}
{"id": "C27", "title": "Presence bits are distinct and fit the bitmap", "statement": "For every type the generator accepts, the presence masks of the link flag, identifier, self link and all attributes are distinct powers of two that fit the chosen bitmap type; types with too many attributes are rejected.", "quantifier": "all types with any number of attributes", "why_tests_cant": "Boundary behaviour at exactly 29/32/61/64 attributes.", "anchors": ["pkg/generators/golang/types_calculator.go: BitMask, BitmapType, bitmapSize"]}
{"id": "C28", "title": "Getters agree with presence", "statement": "For every generated object, GetX reports ok iff the attribute is present and then returns its value; X returns the value if present and the zero value of the type otherwise; nil objects behave like objects without attributes.", "quantifier": "all generated types, all objects (including nil)", "why_tests_cant": "Family of generated accessors over all types and bitmaps.", "anchors": ["pkg/generators/golang/types_generator.go: generateStructTypeSource"]}
{"id": "C29", "title": "Builder setters change only their own attribute", "statement": "Calling the setter of an attribute makes exactly that attribute present with exactly that value (or absent when a nil struct or map is given) and leaves the presence and value of every other attribute, the identifier, the self link and the link flag unchanged.", "quantifier": "all generated builders, all builder states, all setters", "why_tests_cant": "Frame property over all pairs of attributes and all states.", "anchors": ["pkg/generators/golang/builders_generator.go: generateStructBuilderSource"]}
{"id": "C30", "title": "Build after any sequence of setters returns the last values", "statement": "After any sequence of setter calls on a new builder, the built object has an attribute present iff the last relevant call set it, with the value of that last call; the builder can be changed after Build without affecting the object's attributes.", "quantifier": "all sequences of setter calls", "why_tests_cant": "Arbitrary histories of calls.", "anchors": ["pkg/generators/golang/builders_generator.go: generateStructBuilderSource (Build)"]}
{"id": "C31", "title": "Copying an object into a builder and building reproduces the object", "statement": "For every object whose present attributes are not nil, NewX().Copy(object).Build() gives an object with the same observable attributes, recursively, and Copy discards everything previously stored in the builder.", "quantifier": "all objects of all generated types, all previous builder states", "why_tests_cant": "Recursive structure of unbounded depth.", "anchors": ["pkg/generators/golang/builders_generator.go: Copy, Build, list builder Copy/Build"]}
{"id": "C32", "title": "Empty means no observable content", "statement": "Empty returns true iff no attribute, identifier or self link is present (the link flag alone does not count); a list is empty iff it has no items; nil is empty.", "quantifier": "all objects, builders and lists", "why_tests_cant": "All bitmaps.", "anchors": ["pkg/generators/golang/types_generator.go: Empty", "pkg/generators/golang/builders_generator.go: Empty"]}
{"id": "C33", "title": "List accessors are total and consistent", "statement": "Len, Get, Slice, Each and Range of a generated list agree with each other: Get(i) returns item i for 0 <= i < Len and the zero value otherwise, Slice returns an independent copy of all items, Each and Range visit a prefix of the items in order and stop right after the callback returns false; all work on nil.", "quantifier": "all lists, all indexes (negative included), all callbacks", "why_tests_cant": "All indexes and callback behaviours.", "anchors": ["pkg/generators/golang/types_generator.go: list template"]}
{"id": "C34", "title": "Marshalling always produces well formed JSON", "statement": "For every object of every generated type (and lists of them), the sequence of JSON tokens written is one well formed JSON value: separators exactly between members, whatever subset of attributes is present.", "quantifier": "all types, all presence combinations, unbounded nesting", "why_tests_cant": "2^n presence combinations per type and unbounded nesting.", "anchors": ["pkg/generators/golang/json_generator.go: struct write template, generateWriteValue, list write template"]}
{"id": "C35", "title": "Unmarshalling what was marshalled gives the same object", "statement": "For every well formed object, reading back the JSON written for it gives an object with the same link flag, identifier, self link, presence and values of all attributes, recursively.", "quantifier": "all types, all objects, unbounded nesting", "why_tests_cant": "Round trip over all objects of all types.", "anchors": ["pkg/generators/golang/json_generator.go: struct/list read and write templates, generateReadValue, generateWriteValue"]}
{"id": "C36", "title": "Unmarshalling ignores unknown members and member order", "statement": "Adding members with unknown names anywhere in a JSON object or reordering members with distinct names doesn't change the object read; members that occur are present, members that don't occur are absent.", "quantifier": "all types, all JSON objects", "why_tests_cant": "All permutations and insertions.", "anchors": ["pkg/generators/golang/json_generator.go: struct read template"]}
{"id": "C37", "title": "Map attributes are written in a deterministic order", "statement": "The JSON written for a map attribute contains every entry exactly once, sorted by key, independently of the map iteration order.", "quantifier": "all maps, all iteration orders", "why_tests_cant": "Go map iteration is randomised.", "anchors": ["pkg/generators/golang/json_generator.go: generateWriteValue"]}
{"id": "C38", "title": "Query parameters are parsed strictly", "statement": "ParseInteger, ParseFloat, ParseString, ParseBoolean and ParseDate return nothing without error when the parameter is missing, the parsed value when there is exactly one well formed value and an error otherwise.", "quantifier": "all query maps and parameter names", "why_tests_cant": "All value lists.", "anchors": ["pkg/generators/golang/json_generator.go: helpers template (Parse*)"]}
{"id": "C39", "title": "Client URLs match the model paths, the OpenAPI paths and the metric labels", "statement": "Following a path of locators with the generated clients produces the URL obtained by substituting the given identifiers, when they are plain path segments, in the OpenAPI path template of that path; and the tree of paths generated for the metrics contains exactly the paths of the reachable resources and of their actions, with the identifiers replaced by a dash, when the locators of each resource have different labels.", "quantifier": "all paths of all models, all identifiers that are plain path segments", "why_tests_cant": "Agreement of three independently generated artefacts for all models.", "anchors": ["pkg/generators/golang/clients_generator.go: generateResourceClientSource", "pkg/generators/openapi/openapi_generator.go: absolutePath", "pkg/generators/golang/metrics_generator.go", "pkg/generators/golang/helpers_generator.go: Segments"]}
{"id": "C40", "title": "A request returns exactly the outcome of the transport", "statement": "SendContext sends exactly one request with the configured path, method, headers and query parameters (explicit parameters plus the non-nil request parameters) and with the JSON document of the body, without modifying the request object; it sends nothing only when the body can't be written. It returns a transport error as is, the error written by the server when the status is 400 or more and the body isn't empty, and otherwise the decoded response with status and headers, where the getters return the values written by the server (for parameters that aren't called err or status). (A request whose body wasn't set panics, an error with an empty body isn't reported, and an empty body is an error for the metadata.)", "quantifier": "all methods, requests, memories, transports, responses", "why_tests_cant": "All the behaviours of the server and of the network, all the shapes of methods, all the values.", "anchors": ["pkg/generators/golang/clients_generator.go: generateRequestSource, generateResponseSource, generateMetadataRequest", "pkg/generators/golang/json_generator.go: generateMethodSource"]}
{"id": "C41", "title": "Polling stops exactly when it should", "statement": "PollContext performs the task repeatedly; it returns successfully with the first result whose status is accepted and that satisfies all predicates, returns the error of the first attempt that fails without status, never starts an attempt when the next one would be after the deadline, and always terminates when each attempt makes the clock advance; without deadline or with a non-positive interval it fails without calling the task.", "quantifier": "all task behaviours, clocks, intervals, statuses and predicates", "why_tests_cant": "Unbounded executions and arbitrary timing.", "anchors": ["pkg/generators/golang/helpers_generator.go: PollContext, pollContext, evalStatus, evalPredicates"]}
{"id": "C42", "title": "Copied queries and headers are independent and complete", "statement": "CopyQuery, CopyHeader and CopyValues return maps with the same keys and values; later changes of the copy never change the original; adding a value appends it to the values of that name and leaves the others alone.", "quantifier": "all maps and later modifications", "why_tests_cant": "Aliasing over all operation sequences.", "anchors": ["pkg/generators/golang/helpers_generator.go: AddValue, CopyQuery, AddHeader, CopyHeader, CopyValues"]}
{"id": "C43", "title": "URL paths are split into their segments", "statement": "Segments ignores leading and trailing slashes, and splitting the joined form of non-empty slash-free segments gives those segments back.", "quantifier": "all paths", "why_tests_cant": "All strings.", "anchors": ["pkg/generators/golang/helpers_generator.go: Segments"]}
{"id": "C44", "title": "API errors survive marshalling", "statement": "Reading back the JSON written for an API error gives an error with the same presence and values of status, id, href, code, reason, operation id, details and timestamp; the output is well formed JSON with kind Error; UnmarshalErrorStatus overrides only the status.", "quantifier": "all API errors", "why_tests_cant": "All 256 presence combinations and all values.", "anchors": ["pkg/generators/golang/errors_generator.go: writeError, readError, UnmarshalErrorStatus"]}
{"id": "C45", "title": "API error messages mention exactly what is present", "statement": "The message of an error lists status, identifier, code, timestamp and operation identifier (in this order, when present) separated by commas with a final 'and', followed by the reason after a colon; it is never empty.", "quantifier": "all API errors", "why_tests_cant": "All presence combinations and strings, including empty reasons.", "anchors": ["pkg/generators/golang/errors_generator.go: Error.Error"]}
{"id": "C46", "title": "Server error replies use the identifier as status", "statement": "SendError writes the error with a status code equal to its numeric identifier, and anything with a non numeric identifier is answered with the panic error; SendNotFound, SendMethodNotAllowed and SendInternalServerError answer 404, 405 and 500.", "quantifier": "all errors and requests", "why_tests_cant": "All identifiers.", "anchors": ["pkg/generators/golang/errors_generator.go: SendError, SendPanic, SendNotFound, SendMethodNotAllowed, SendInternalServerError"]}
{"id": "C47", "title": "The OpenAPI document is always well formed JSON", "statement": "For every model the sequence of writes made by the OpenAPI generator is one well formed JSON object with balanced objects and arrays and separators exactly where needed.", "quantifier": "all models", "why_tests_cant": "All models with any combination of empty or missing elements.", "anchors": ["pkg/generators/openapi/openapi_generator.go", "pkg/generators/openapi/buffer.go"]}
{"id": "C48", "title": "The OpenAPI document describes exactly the reachable methods", "statement": "The paths of the OpenAPI document contain an operation for every method of every resource reachable from the root, under the path the client uses, with the verb the client uses, with one required path parameter per variable locator and one query parameter per scalar input; nothing else is contained except the metadata operation.", "quantifier": "all models without loops", "why_tests_cant": "All models.", "anchors": ["pkg/generators/openapi/openapi_generator.go: generatePaths, generateResourcePaths, generateMethod, generateURLParameters"]}
{"id": "C49", "title": "All OpenAPI schema references resolve", "statement": "Every $ref written in the OpenAPI document of a version refers to a schema defined in the components section of the same document.", "quantifier": "all models whose attribute and parameter types belong to the version", "why_tests_cant": "All models.", "anchors": ["pkg/generators/openapi/openapi_generator.go: generateSchemaReference, generateComponents, generateSchema"]}
{"id": "C50", "title": "Removing extra blank lines only removes blank lines", "statement": "Post-processing of the generated Go source keeps every non-blank line in order (provided that the text ends with a blank line, as every emitted template does), never leaves two consecutive blank lines and is idempotent up to the final line.", "quantifier": "all generated texts", "why_tests_cant": "All texts.", "anchors": ["pkg/generators/golang/buffer.go: removeExtraBlankLines, Emit"]}
{"id": "C51", "title": "Nothing is written when there are errors", "statement": "A generator buffer refuses to write its file when any error was reported before, and the message tells how many; otherwise it writes exactly the emitted text.", "quantifier": "all sequences of emits and reports", "why_tests_cant": "All histories.", "anchors": ["pkg/generators/golang/buffer.go: Write, Emit", "pkg/markdown/buffer.go: Write", "pkg/generators/openapi/buffer.go: Write", "pkg/language/writer.go"]}
{"id": "C52", "title": "Generated private identifiers are never Go keywords", "statement": "The private and public Go identifiers calculated from names are never Go reserved words, and distinct reserved words stay distinct.", "quantifier": "all names", "why_tests_cant": "All names.", "anchors": ["pkg/generators/golang/names_calculator.go: Public, Private", "pkg/generators/golang/reserved_words.go"]}
{"id": "C53", "title": "Documentation comments stay comments", "statement": "The comment block generated for any documentation text has every line starting with the comment marker and contains the documentation lines in order, so documentation text can never leak into code; the documentation collected for a declaration consists of the comment lines directly before it without their markers and common indentation.", "quantifier": "all documentation texts", "why_tests_cant": "All texts, including empty lines.", "anchors": ["pkg/generators/golang/buffer.go: lineComment", "pkg/language/reader.go: getDoc"]}
{"id": "C54", "title": "Documentation summaries are the first sentence", "statement": "The summary shown for a documented thing is the documentation up to and including its first dot (on one line), or the complete documentation if there is no dot.", "quantifier": "all documentation texts", "why_tests_cant": "All texts.", "anchors": ["pkg/generators/docs/docs_generator.go: docSummary"]}
{"id": "C55", "title": "Markdown clean up removes only indentation and trailing space", "statement": "The Markdown buffer keeps the number and order of lines, removes exactly the leading tabs and trailing white space of each line, and doing it twice is the same as doing it once.", "quantifier": "all documents", "why_tests_cant": "All texts.", "anchors": ["pkg/markdown/buffer.go: removeTabs"]}
{"id": "C56", "title": "Error counts and messages are consistent", "statement": "The number of errors kept by the reporter is the number of error reports made, and is never changed by informational or warning messages.", "quantifier": "all sequences of reports", "why_tests_cant": "All sequences.", "anchors": ["pkg/reporter/reporter.go"]}
{"id": "C57", "title": "Generated Go package names of different versions are different packages", "statement": "Service and version packages are derived from the lower case names; two versions get the same package only if their service and version names agree up to case and underscores; the selector used in the code is the last component of the import path.", "quantifier": "all pairs of services and versions", "why_tests_cant": "Injectivity over all names.", "anchors": ["pkg/generators/golang/packages_calculator.go", "pkg/generators/golang/buffer.go: cleanPkg"]}
{"id": "C58", "title": "A returned model contains exactly what the source declares", "statement": "When a single version is read successfully, every declared type, resource and error is found by its name in the returned model with the contents of its declaration (documentation, annotations, attributes, values, methods, parameters, locators, code), and the version has no other types than the built-in ones, the declared ones, the list and map types that the declarations use, and the list types added at the end.", "quantifier": "all sources of a version, split in any number of files", "why_tests_cant": "End to end statement over all sources, including forward references and any order.", "anchors": ["pkg/language/reader.go: Read and all the Exit callbacks"]}
{"id": "C59", "title": "A returned model has no dangling references", "statement": "When a model is returned no error was reported, every type and resource referred to by attributes, lists, maps, parameters and locators belongs to the same version, every locator has a target, every version has a root resource, everything is stored with its own name, and, when there is only one version, no type is undefined. (With several versions an undefined type can be returned.)", "quantifier": "all sources", "why_tests_cant": "Universal over all sources accepted by the reader.", "anchors": ["pkg/language/reader.go: Read", "pkg/language/checks.go"]}
{"id": "C60", "title": "Methods of a returned model are acceptable", "statement": "When a model is returned, every parameter of every method of every resource of every version has at least one direction, and every method satisfies the documented conditions of its category and has default values of the right types, so the generators can rely on them.", "quantifier": "all sources", "why_tests_cant": "Universal over all sources accepted by the reader.", "anchors": ["pkg/language/reader.go: Read", "pkg/language/checks.go: checkMethod"]}
{"id": "C61", "title": "Diagnostics of the checks name the offending method or parameter", "statement": "Every message reported while a method is checked contains the full name (service, version, resource, method and parameter) of the method or of one of its parameters.", "quantifier": "all methods", "why_tests_cant": "All the messages of all the checks.", "anchors": ["pkg/language/checks.go", "pkg/reporter/reporter.go: fqn"]}
{"id": "C62", "title": "Reading always terminates, and fails abruptly only in two documented cases", "statement": "Read terminates for every input; it panics if and only if some version has no root resource or a locator without target can be reached from the root of some version; otherwise it returns a model or an error.", "quantifier": "all sources", "why_tests_cant": "Termination and absence of panics over all sources.", "anchors": ["pkg/language/reader.go: Read", "pkg/language/checks.go: checkLocatorLoops"]}
{"id": "C63", "title": "Embedded OpenAPI documents are byte for byte the generated ones", "statement": "The array of bytes written in the Go source that embeds an OpenAPI document has exactly one literal for each byte of the document, in the same order and with the same value.", "quantifier": "all contents, including all byte values and lengths", "why_tests_cant": "All byte sequences; a test covers a few documents.", "anchors": ["pkg/generators/golang/buffer.go: byteArray", "pkg/generators/golang/openapi_generator.go"]}
{"id": "C64", "title": "JSON texts written by the generated code and by the generators are valid", "statement": "The text of every JSON document written by the streams used by the generated code and by the OpenAPI generator is valid according to the grammar of RFC 8259, with any characters in the strings (quotes, backslashes, control characters) and any nesting, and it can be read only as the value that was written. In particular the text of every object and list that is written without error is the document of exactly one value, the one that shows that object or list. The readers find in any text, valid or not, only the tokens of the part of it that they have read.", "quantifier": "all JSON values, all strings, all objects and lists", "why_tests_cant": "All strings with all byte values, all nesting levels.", "anchors": ["pkg/generators/golang/json_generator.go: NewStream", "pkg/generators/openapi/buffer.go: Build"]}
{"id": "C65", "title": "The query sent by the clients is the query parsed by the servers", "statement": "The query text sent by a generated client contains only characters allowed in URLs, can be parsed, and gives for every name the same values in the same order, for any bytes in names and values; and parsing in the server with the generated helpers a parameter that was set in the client gives back the value (with the precision of RFC 3339 seconds for dates, and for floats whose text can be parsed back).", "quantifier": "all queries, all strings of bytes, all parameter values", "why_tests_cant": "All byte strings in names and values, and the composition of two independently written pieces of generated code.", "anchors": ["pkg/generators/golang/clients_generator.go: SendContext", "pkg/generators/golang/helpers_generator.go: AddValue, ParseInteger, ParseString, ParseDate"]}
{"id": "C66", "title": "A model text has exactly one meaning, the one of the grammars", "statement": "The declarations that are read from a text are those derived by the grammars from its tokens, where tokens are the longest matches of the rules of the lexer and keywords win over names; a text without such a derivation is rejected; no text has two meanings although many words are optional. The text that follows the last declaration is ignored if it doesn't start with '@' or with the keyword of a declaration.", "quantifier": "all texts", "why_tests_cant": "Soundness and completeness with respect to the grammars over all texts.", "anchors": ["pkg/language/ModelLexer.g4", "pkg/language/ModelParser.g4: file", "pkg/language/reader.go: loadFile"]}
{"id": "C67", "title": "The layout of a model text doesn't matter", "statement": "Two texts with the same tokens and different white space, line comments and block comments between them have the same declarations; and every list of declarations whose names aren't keywords can be written, and is read back from any layout of its tokens.", "quantifier": "all sequences of tokens, all layouts, all declarations", "why_tests_cant": "All layouts; the grammar has many optional words.", "anchors": ["pkg/language/ModelLexer.g4", "pkg/language/ModelParser.g4"]}
{"id": "C68", "title": "String literals have the value of the Go specification", "statement": "The value of a string literal of a model is the one that the specification of Go gives to that text, with all its escape sequences, and there is no other; texts without a value are rejected. Double quotes can't be escaped with a backslash, because the lexer ends the literal at the first double quote.", "quantifier": "all literals", "why_tests_cant": "All literals and escape sequences.", "anchors": ["pkg/language/reader.go: ExitStringLiteral", "pkg/language/ModelLexer.g4: STRING_LITERAL"]}
{"id": "C69", "title": "Each element has the documentation written before it", "statement": "If no comment starts in a line where an element with documentation starts, elements with comments in the previous line start in different lines, and each block of comments is well formed, then loading the text reports nothing and gives each type, value, attribute, method, parameter and locator the documentation in the block of comment lines that ends in the line before it, and only that.", "quantifier": "all texts", "why_tests_cant": "The comments are removed from a shared map as they are used, in the order in which the elements end.", "anchors": ["pkg/language/reader.go: getDoc", "pkg/language/reader.go: loadFile"]}
{"id": "C70", "title": "What the generated code writes conforms to the published OpenAPI schemas", "statement": "The JSON documents written for objects and lists of a version, and the bodies of the requests sent by its clients, conform to the schemas that the OpenAPI document generated for the same version contains for those types and for the request with that method and path, when: schema names are different, integers fit in 32 bits, enumerated values are declared, dates are valid, values of type interface are objects, there are no lists of links, and the names of the parameters of actions aren't changed with annotations.", "quantifier": "all versions, all objects and lists, all requests", "why_tests_cant": "Relates two generators that are written independently, for all models and all values.", "anchors": ["pkg/generators/openapi/openapi_generator.go: generateSchema, generateSchemaReference", "pkg/generators/golang/json_generator.go", "pkg/generators/golang/clients_generator.go: SendContext"]}
{"id": "C71", "title": "The @ref annotation gives a version all that the referenced class needs", "statement": "After a class with a @ref annotation is read, the version has and owns the referenced class and all the types used by its attributes (and by the elements of its lists and maps), at any depth, and the rest of its table of types is unchanged; links of the imported types to classes that the version explicitly declares are links inside the version, and the other links, when their types aren't imported as well, remember the version where the type is; attributes that already used the class stop being links to other versions. The import ends exactly when the objects of the class can't contain objects of the same class; references to unknown types are ignored, and references to unknown services or versions, or inside referenced services, panic.", "quantifier": "all type graphs, all states of the reader, all paths", "why_tests_cant": "All graphs of shared and mutable types, with any sharing between lists, links and attributes; the result depends on the order of the visits.", "anchors": ["pkg/language/reader.go: ExitClassDecl, removeLinkedAttributes, handleClassRef, recursivelyAddTypeToVersion"]}
{"id": "C72", "title": "The generated Go types have valid members", "statement": "In each generated object, builder, request, response, poll request, poll response and client the fields have different names, so do the methods, and no field has the name of a method, if and only if: the Go names of the attributes (parameters, methods and locators) are different, so are those of their fields, none is one of the names that the generated code uses in that type, and where there are getters no name is Get followed by another. The code that reads and writes the parameters uses the declared fields, except for parameters called Status or Err.", "quantifier": "all types, methods and resources", "why_tests_cant": "All combinations of names and annotations; fixed names are spread over several templates.", "anchors": ["pkg/generators/golang/types_generator.go: generateStructTypeSource", "pkg/generators/golang/builders_generator.go: generateStructBuilderSource", "pkg/generators/golang/clients_generator.go: generateRequestSource, generateResponseSource, generateResourceClientSource, avoidBuiltin", "pkg/generators/golang/json_generator.go: parameterFieldName"]}
{"id": "C73", "title": "The declarations and the files of the package of a version have different names", "statement": "If the Go names chosen in the source of a version (types, enumerated values, clients, requests, responses, errors) are different from each other and from the fixed ones, and they don't start or end with the words that the generators add (New, Marshal, Unmarshal, Write, Read, List, Kind, Builder; and Link and Nil for structs), and so are the names of types and of pairs of resource and method without annotations, and list types have different elements, then all the top level declarations of the generated package have different names. The files of the package have different names if and only if the names of types and resources are different without considering the case of letters, and none is metadata.", "quantifier": "all versions", "why_tests_cant": "Clashes depend on combinations of names of five generators that don't know about each other.", "anchors": ["pkg/generators/golang/types_generator.go: Run", "pkg/generators/golang/builders_generator.go: Run", "pkg/generators/golang/json_generator.go: Run", "pkg/generators/golang/clients_generator.go: Run", "pkg/generators/golang/errors_generator.go: Run"]}
{"id": "C74", "title": "The documentation generator writes one page for each resource and type, and an index", "statement": "When nothing has been reported and the directories and files can be written, the documentation generator succeeds, changes only the files of the pages, and each file contains exactly the title, documentation, tables and sections of its element, provided that no other page with the same name is written later (pages of resources, pages of types and the index never have the same name, but all the versions have a page for their root), that names have words and no slashes and that lines are shorter than 64 KiB. When errors have been reported it changes nothing.", "quantifier": "all models, all file systems", "why_tests_cant": "All models; the content of each file depends on the order of all the writes.", "anchors": ["pkg/generators/docs/docs_generator.go: Run, generateIndex, generateResource, generateType, documentEnum, documentStruct", "pkg/markdown/buffer.go: Write"]}
{"id": "C75", "title": "The links of the documentation index lead to pages", "statement": "The index has a link for each resource and each type of all the versions; when the generator succeeds the files of the links of the resources, enumerated types, structs and classes exist, and the files of the links of other types (scalars, lists and maps) aren't written.", "quantifier": "all models", "why_tests_cant": "All models: the links and the files are computed in different places.", "anchors": ["pkg/generators/docs/docs_generator.go: generateIndex, generateType", "pkg/markdown/names_calculator.go"]}
{"id": "C76", "title": "The tables of the documentation are well formed and tell the truth", "statement": "The row of an element in a table of the documentation is a single line when its documentation contains a dot or is a single line; the documented name of an attribute is its name in the JSON documents when it isn't changed with an annotation; and the table of a class contains the kind, id and href attributes if and only if the class has other attributes.", "quantifier": "all elements, all documentation texts", "why_tests_cant": "All texts and names; relates the documentation with the JSON generator.", "anchors": ["pkg/generators/docs/docs_generator.go: documentStruct, documentEnum", "pkg/generators/golang/json_generator.go: generateStructTypeSource", "pkg/generators/docs/docs_generator.go: docSummary"]}
{"id": "C77", "title": "JSON documents have one meaning, and the code that reads them finds it", "statement": "Reading a JSON document as an object or a list of a version succeeds if and only if the document stands for a value of that type, and the result is that value: attributes are present exactly when there is a member with their name and have the value of the last one, unknown members are ignored, all the members of known attributes must be correct, null is the empty string, object, list or map, identifiers, links and kinds are the texts of their members, integers are those of 64 bits and dates those of RFC 3339 with optional fractions. Whatever has been read, from any sequence of tokens, is correctly typed, contains no nil values, and can be written again. Documents that conform to the schemas published for their types are read, if the values of struct types are objects and there are no lists of links; conforming lists of links are always rejected. The documents have no members with empty names.", "quantifier": "all versions, all JSON documents, all sequences of tokens", "why_tests_cant": "All documents, including repeated members, nulls at all depths, members in any order and recursive types; relates the code with the OpenAPI generator.", "anchors": ["pkg/generators/golang/json_generator.go: generateStructTypeSource, generateListTypeSource, generateReadValue", "pkg/generators/openapi/openapi_generator.go: generateSchema"]}
{"id": "C78", "title": "The declarations of the source determine what the generated code reads and writes", "statement": "All the types of a version that is read come from its source: they are predefined, declared there with the same attributes, values, documentation and annotations, or lists and maps. If the source has no lists or maps of lists or maps, and the names of the attributes of each class and struct are different in the documents, not empty, not those of the identifier, link and kind of classes, and not more than 63 slots, then the version meets all the conditions that the properties of the generated code require; also when it is read together with other independent versions. Then the text of a document is accepted for a declared class or struct if and only if all the members with the names of declared attributes stand for values of the declared types and the kind, identifier and link of classes are strings or null; the getters return what the last members with the names of the attributes stand for, or the zero value and false if there are none; and the documents that are written have exactly the members of the attributes that are present and not nil. The reader doesn't check those conditions.", "quantifier": "all sources, all documents, all objects", "why_tests_cant": "Relates the text of the model with the behaviour of the generated code, across the reader and two generators, for all sources and documents.", "anchors": ["pkg/language/reader.go: Read, loadVersion, ExitClassDecl, ExitStructDecl", "pkg/generators/golang/json_generator.go: generateStructTypeSource, generateReadValue", "pkg/generators/golang/types_generator.go: generateStructTypeFile"]}
{"id": "C79", "title": "The model that is read is the one in the directories", "statement": "Reading a list of directories gives a model, without errors, if and only if all of them exist and can be listed, each of their directories is a service, each directory of those is a version, all the regular files of the versions, whatever their names are, can be opened and are in the language, and the declarations of those files, taken in the order of the names, are accepted; files beside services and versions and directories inside versions are ignored. Any other problem makes the read fail with an error reported. The order in which the file system lists the entries doesn't matter. Contrary to the help of the commands, files given as models are rejected, the extension of the files isn't considered, and deeper directories aren't loaded.", "quantifier": "all directory trees, all contents of the files, all lists of paths", "why_tests_cant": "All trees: missing, unreadable and special files at any level, and all the orders of their entries.", "anchors": ["pkg/language/reader.go: Read, loadModel, loadService, loadVersion, loadFile", "pkg/language/errors.go: SyntaxError"]}
{"id": "C80", "title": "The exit codes of the commands tell what happened, and nothing is generated from wrong models", "statement": "The check command ends with code zero if and only if the option is given and the model is accepted, and it never changes files. The commands that check, document and generate specifications end with code zero or one, and with zero if and only if no error has been reported; the command that generates Go code reports an error whenever it ends with one. If mandatory options are missing or the model isn't accepted no file is changed. The documentation and the specifications that are written are those of the accepted model. The Go generators run in a fixed order until the first failure, and only if all succeed the sorted list of the generated files is given to the formatter, once.", "quantifier": "all directory trees, all options, all behaviours of the Go generators, the file system and the formatter", "why_tests_cant": "All models and failures; the order of the effects and the relation between the reports and the exit code can't be seen in single runs.", "anchors": ["cmd/metamodel/check/cmd.go: run", "cmd/metamodel/generate/docs/cmd.go: run", "cmd/metamodel/generate/openapi/cmd.go: run", "cmd/metamodel/generate/golang/cmd.go: run"]}
{"id": "C81", "title": "What the openapi command publishes for a model is what the generated code writes and reads", "statement": "When the directories contain a model that the reader accepts, and its versions are independent, have no collections of collections, have attribute names that don't clash and have type names with different camel cases, the openapi command ends with exit code zero; and the specification that it writes for each version describes the generated code: every document written for an object of a class or struct conforms to the schema of its type (except for the values described in C70), and every document that conforms to it (with the shapes described in C77) is read without errors.", "quantifier": "all directory trees, all models, all versions, all types, all objects and all documents", "why_tests_cant": "It relates three programs: the tool that reads the directories, the specification that it writes and the code that it generates; tests compare at most two of them, for some models and documents.", "anchors": ["cmd/metamodel/generate/openapi/cmd.go: run", "pkg/language/reader.go: Read", "pkg/generators/openapi/openapi_generator.go: Run", "pkg/generators/golang/json_generator.go"]}
{"id": "C82", "title": "The types and functions generated for attributes and parameters respect the rules of Go", "statement": "If the names of the types are identifiers, the code generated for an attribute of a scalar, enumerated, class or struct type, of a list or map of them, or that is a link to a list of classes or structs, uses the Go types that represent its type (the basic types, time.Time, interface{}, the declared types, pointers to structs and to lists, slices and maps with string keys, and in builders the builders of the structs), only mentions types that the package declares, imports the time package exactly when it is needed and no other package, and its fields, getters, setters, copies and builds respect the typing rules of the language. The same holds for the parameters of requests that aren't maps, and for those of responses, with the code that stores what has been read, that aren't interfaces. Those exceptions, which the reader accepts, give code that the compiler rejects, without any error; so do the links to lists of scalars. Lists and maps of lists or maps are accepted by the reader and reported when the code is generated.", "quantifier": "all versions, all attributes, all parameters, all names", "why_tests_cant": "All combinations of kinds of types, links, lists, maps and parameters; tests compile a few models.", "anchors": ["pkg/generators/golang/types_calculator.go: ValueReference, NullableReference, ListReference, BuilderReference, ZeroValue, Package", "pkg/generators/golang/types_generator.go: fieldType, getterType", "pkg/generators/golang/builders_generator.go: fieldType, setterType, generateStructBuilderSource", "pkg/generators/golang/clients_generator.go: fieldType, accessorType, generateRequestSource, generateResponseSource", "pkg/generators/golang/buffer.go: replaceValue"]}
{"id": "C83", "title": "The generated functions that read and write JSON respect the rules of Go", "statement": "If the names of the types are identifiers, the structs have attributes, the attributes of each type and the parameters of each method have types that can be used and names that don't clash, and the methods have been accepted by the checks, then the code that reads and writes JSON is generated for all the types and methods without reporting errors or failing, and the compiler accepts all its functions: all the variables, fields, methods, functions and constants that they use are declared, by the generated package or by the libraries, and have the types that the context needs, all the variables that they declare are used and not repeated in their block, the cases of the switches are different, break is only used in loops, and the functions that have results end with a return statement. It is also shown that a struct without attributes, which the reader accepts, gives, without errors, a function that the compiler rejects.", "quantifier": "all versions, all types, all methods, all parameters, all names", "why_tests_cant": "All combinations of kinds of types, methods and parameters, with all the functions that call each other; tests compile a few models.", "anchors": ["pkg/generators/golang/json_generator.go: Run, generateStructTypeSource, generateListTypeSource, generateMethodSource, generateReadValue, generateWriteValue, generateReadBodyParameter, generateWriteBodyParameter"]}
{"id": "C84", "title": "Executing the generated functions that write JSON gives the documents of the objects", "statement": "When the code of a version has been generated, and its functions, constants and fields are declared once, executing the statements of the generated function that marshals a class or struct, or a list of scalars, classes or structs, with the meaning that the Go language gives to them, ends for all objects and lists: it writes a well formed document that shows the object or list and returns no error if all its values can be written, returns an error if there is a number that isn't finite, and panics if there is a nil pointer where an object is needed, as it does for nil pointers; the order in which the language enumerates maps doesn't matter.", "quantifier": "all versions, all types, all objects and lists of any size and depth, all orders of the entries of maps", "why_tests_cant": "Relates each statement of the generated code with what is written for all objects: wrong bit masks, counters, separators, orders of keys or calls in any combination of present attributes.", "anchors": ["pkg/generators/golang/json_generator.go: generateStructTypeSource, generateListTypeSource, generateWriteValue", "pkg/generators/golang/types_calculator.go: BitMask", "pkg/generators/golang/types_generator.go: generateStructTypeFile"]}
{"id": "C85", "title": "Executing the generated functions that read JSON gives the objects of the documents", "statement": "When the code of a version has been generated, its functions, constants and fields are declared once and its structures are declared, executing the statements of the generated function that unmarshals a class or struct, or a list of scalars, classes or structs, with the meaning that the Go language gives to them, ends for all inputs, and never fails with a nil pointer: it gives the object or the list that the document contains and consumes the document, or ends with an error if the document is wrong. After reading a document that is an object an attribute is present exactly when the document contains it, and executing the function that writes and then the one that reads gives the same object or list, except for the values that are known to be lost (C35).", "quantifier": "all versions, all types, all documents, right and wrong, of any size and depth", "why_tests_cant": "Relates each statement of the generated code, nested loops and calls with what is read for all documents: wrong bits, fields, cases, constants or variables in any combination of members.", "anchors": ["pkg/generators/golang/json_generator.go: generateStructTypeSource, generateListTypeSource, generateReadValue", "pkg/generators/golang/types_calculator.go: BitMask", "pkg/generators/golang/types_generator.go: generateStructTypeFile"]}
{"id": "C86", "title": "Executing the generated functions that write the bodies of requests gives the documents of the parameters", "statement": "When the code of a version has been generated, and its functions, constants and fields are declared once, executing the statements of the function that writes the body of the request of any method of any resource, with a request that contains the values of the input parameters (behind pointers when they are scalars, nil when they haven't been given), ends and writes what the clients are said to send: for the methods that have one value as body a well formed document that shows that value, for the actions an object with one member for each parameter that has been given, in order and with the name of the parameter, with the separators that the format requires, and nothing for the methods without body.", "quantifier": "all versions, all resources, all methods, all values of the parameters, of any size and depth", "why_tests_cant": "Relates each statement of the generated code, its conditions and its separators with what is sent for all methods and all combinations of parameters that are given or not.", "anchors": ["pkg/generators/golang/json_generator.go: generateMethodSource, generateAddMethodSource, generatePostMethodSource, generateSearchMethodSource, generateActionMethodSource, generateWriteBodyParameter", "pkg/generators/golang/clients_generator.go: generateRequestSource, fieldType"]}
{"id": "C87", "title": "Executing the generated functions that read the bodies of responses gives the values of the parameters", "statement": "When the code of a version has been generated, its functions, constants and fields are declared once and its structures are declared, executing the statements of the function that reads the body of the response of any method of any resource, with a response that has one field for each output parameter, ends for all inputs and never fails with a nil pointer: when the document is right it returns no error and the fields of the response contain exactly what the clients are said to receive, behind pointers when the parameters are scalars and inside of a list object when they are the items of a page, and when it is wrong it ends with an error. If the body is the document of one value the field of that parameter contains that value and the other fields don't change; if it is an object with members written for the parameters each field contains the value of its member, in any order and with any other members, and the fields of the parameters without member don't change. All the generated functions that write or read JSON return the errors of the streams and iterators that they use and of the functions that they call, and check those of the creation of the iterators and of the end of the streams.", "quantifier": "all versions, all resources, all methods, all documents, right and wrong, of any size and depth", "why_tests_cant": "Relates each statement of the generated code, its cases and its loops with what is received for all methods and all documents: wrong fields, cases, pointers or wrappers in any combination of members.", "anchors": ["pkg/generators/golang/json_generator.go: generateMethodSource, generateAddMethodSource, generateGetMethodSource, generateListMethodSource, generatePostMethodSource, generateSearchMethodSource, generateActionMethodSource, generateReadBodyParameter", "pkg/generators/golang/clients_generator.go: generateResponseSource, fieldType"]}
