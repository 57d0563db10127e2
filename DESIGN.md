# Design of the formal model of ocm-api-metamodel

The model is written in Rocq/Coq 8.16.1, with the standard library only, and lives in `rocq/theories`. It describes the Go
code of `/repo` *and* the Go code that its templates generate. Properties are numbered as in `properties.jsonl`;
`MANIFEST.json` maps each of them to the theorems that prove it.

## Organisation

For each area there are up to five kinds of files:

* `XModel.v`: total, executable functions. No proofs. Every definition cites the file and lines that it models, and says what
  was simplified.
* `XSpec.v`: small vocabulary used to state the properties. It doesn't use the functions of the model, except for the types of
  data, or uses only those that other properties pin down.
* `XProofs*.v`: lemmas.
* `XExamples.v`: concrete cases that satisfy the hypotheses of the theorems, and the counterexamples.
* `PropX.v`: only theorems (closed by `exact lemma`), their `Print Assumptions`, and `Example`s that show that the hypotheses can be
  satisfied by something non trivial.

Conventions: Go strings are Coq `string`s (sequences of bytes); Go maps are association lists without repeated keys, and
where Go iterates over a map the theorems quantify over the order; errors are values; nil is explicit; panics are explicit
(`Panics`, `WPanic`, `Panicked`, `None`...); loops that aren't structural use fuel, running out of it is a separate result, and the
theorems either exclude it or prove that enough fuel exists.

A property that the code violates is proved in its strongest true form, with the conditions written in its statement in
`properties.jsonl`, and the violation is proved by a theorem with suffix `_refuted`, which exhibits a concrete input. A theorem
with suffix `_partial` proves only part of its statement.

## What is modelled and how each property is proved

| Properties | Files | Code | Method |
| --- | --- | --- | --- |
| C01–C03, C06 | `NamesModel` | `pkg/names`: words, comparison, renderings, separator parser, `Cat` | induction on lists of words and on strings |
| C04, C05 | `NamesModel` | `pkg/names/parser.go`, `case.go`: `ParseUsingCase` (chunks, pairs, words) | alternation invariant of the chunks, induction; separate grammar of identifiers |
| C07–C10 | `ConceptsModel` | `pkg/concepts`, `pkg/nomenclator`: sorted slices, maps by name, built-in types, categories | uniqueness of sorted permutations, laws of association lists |
| C11, C56 | `ReporterModel`, `ChecksModel` | `pkg/reporter`, end of `Reader.Read` | induction on histories of reports |
| C12–C16, C58 | `ReaderModel` | listener callbacks of `pkg/language/reader.go` on syntax trees | invariants on the history of callbacks |
| C14 (complete models) | `ReaderModel`, `ChecksModel` | `Read` with any number of services and versions | the state of the reader after each version is the union of what each version leaves alone; `VersionsSpec` states the condition on the sources |
| C17–C21, C60, C61 | `ChecksModel` | `pkg/language/checks.go` | reflection of each check into a separate specification (`ChecksSpec`) |
| C22, C23, C62 | `ChecksModel`, `PathsModel` | loop check, `Version.Paths` | pigeonhole on the resources, measure on acyclic graphs |
| C59 | `ReaderModel` | complete `Read` | composition of the previous ones |
| C24–C26 | `BindingModel` | `pkg/http/binding_calculator.go`, `pkg/annotations`, verbs of the docs generator | case analysis, partitions |
| C52, C57 | `GoNamesModel` | names, reserved words and packages calculators | induction on strings |
| C27–C33 | `ObjectsModel` | the generated types and builders (templates of `types_generator.go`, `builders_generator.go`), bitmap of `types_calculator.go` | bitwise reasoning, induction on sequences of setters, nested induction on values |
| C29–C31, C33 (memory) | `HeapModel` | the same functions with explicit memory: which slices, maps and objects are shared | refinement of the functions on values, with the set of addresses that are reached; a step changes one address at most |
| C34–C37 | `JsonModel` | the generated JSON writers and readers, on tokens | nested induction on values, fuel of the readers |
| C64 | `JsonTextModel`, `JsonLexModel` | texts of the streams of jsoniter and tokens found by its iterators | separate grammar of RFC 8259 (`JsonTextSpec`); the tokens found in correct texts are those of the grammar (`JsonLexProofs`), and in any text only those of the part that was read (`JsonLexProofs2`) |
| C38, C41–C43 | `HelpersModel`, `GoTimeModel` | the generated helpers: parsing of parameters, copies of queries and headers, polling, segments | explicit memory of slices and maps, induction on attempts |
| C39 | `ClientsModel` | URLs of the generated clients, tree of paths of the metrics | induction on paths of locators |
| C40, C41, C65 | `RequestModel` | the generated `SendContext`, request and response bodies, metadata, polling requests, `url.Values.Encode` | explicit memory, arbitrary transport, composition with the JSON and error theorems; sequences of setters and of poll settings by induction over the calls (`PollSpec`) |
| C44–C46 | `ApiErrorModel` | the generated errors package | as C34–C37 |
| C47–C49 | `OpenapiModel` | `pkg/generators/openapi` | executor of the calls to the buffer, grammar of tokens, induction on the model |
| C50, C53–C55, C63 | `TextModel` | post-processing of Go and Markdown, comments, `getDoc`, summaries, arrays of bytes | induction on lines |
| C66–C69 | `SyntaxModel` | the language: lexer and parser of `ModelLexer.g4` and `ModelParser.g4`, `strconv.Unquote`, assignment of documentation to nodes | separate grammars (`SyntaxSpec`), soundness and completeness of a recursive descent parser, induction; the assignment of documentation is stated for sources with faulty comments too (`C69_faulty_comments`) |
| C70 | `ObjectsModel`, `JsonModel`, `OpenapiModel`, `RequestModel` | the documents written by the generated code against the OpenAPI document of the same version | an independent definition of conformance to a schema (`ConformSpec`), induction on values, composition of C24/C40 and C48/C49 |
| C71 | `RefModel` | `removeLinkedAttributes`, `handleClassRef` and `recursivelyAddTypeToVersion` on a memory of shared types (references, owners, flags, link owners and table of the version); files are an oracle | the import is a sequence of events whose set is characterised by an independent reachability relation (`RefSpec`); invariants of the sequence; well-founded induction on containment |
| C72 | `DeclsModel` | names of the fields and methods of the generated objects, builders, requests, responses, poll requests and responses, and clients | exact conditions (equivalences) for the rules of Go about members, from lemmas about lists without repetitions and about the first letter of public and private names |
| C73 | `DeclsModel` | names of all the top level declarations and of all the files of the package of a version | permutation of the declarations into groups told apart by the words that the generators add, each without repetitions; equivalence for the files; counterexamples are models accepted by `ReaderModel` |
| C74 | `DocsModel` | `docs_generator.go` and `markdown/names_calculator.go` function by function, over the buffers of `BufferModel` | the pages are lists of pieces of text defined in `DocsSpec`; each template is shown to print the lines of its pieces, then induction on the writes of the model |
| C75 | `DocsModel` | links of the index and names of the files | membership in the pages of C74; the names of the files are different because of their suffixes |
| C76 | `DocsModel`, `TextModel`, `GoNamesModel` | rows of the tables, summaries, documented names | case analysis; counterexamples are models accepted by `ReaderModel` |
| C77 | `JsonModel` (readers), `OpenapiModel`; specification `ReadingSpec` (the value that a document stands for) | reading succeeds exactly with the value that the document stands for; typed and printable results; documents that conform to the published schemas | induction on the document, folds over members related to the last member with a name; induction on the fuel of the readers for arbitrary tokens |
| C78 | `ReaderModel`, `ChecksModel`, `ObjectsModel`, `JsonModel`, `JsonLexModel`; specification `SourceSpec` | the origin of each type of a version; the conditions `standard`, `sound` and `compiles` of C28, C35, C64, C70 and C77 follow from conditions on the source; documents accepted, values of getters and members written, in terms of the declarations | invariant of the loading of declarations (every type has an origin), then composition with C14, C28, C64 and C77 |
| C79 | `ToolModel`: trees of directories, `read_dir`, `load_source`, `load_version_dir`, `load_service_dir`, `load_model_dir`, `read_paths`, on top of `SyntaxModel`, `ReaderModel` and `ChecksModel`; the recovery of ANTLR is a parameter that always reports an error; specification `ToolSpec` | `read_paths` succeeds exactly for the trees that `contains` describes, by a simulation that ignores the texts of the reports; sorting makes the order irrelevant |
| C80 | `ToolModel`: `check_command`, `docs_command`, `openapi_command`, `go_command`; the Go generators, the list of generated files and `goimports` are parameters | case analysis on how each command ends, composed with C47 and C74 |
| C81 | `openapi_command`, `read`, `marshal_object`, `unmarshal_object` and `lex_text` together | composition of C70, C77, C78, C79 and C80; the types of an accepted model are defined by their origin |
| C82 | `GoTypesModel`: `types_calculator.go` and the functions of the generators of types, builders, clients and JSON that use it; the code of the fields, getters, setters, `Copy`, `Build`, and of the parameters, is a small syntax tree; `GoTypesSpec` has the types of Go, the texts that denote them and the typing rules | case analysis on the kind of the type and of its element; inversion of the rules for the rejected code |
| C83 | `JsonCodeModel`: the functions that `json_generator.go` generates for the types and methods of a version, as syntax trees with their statements; `JsonCodeSpec` has the rules of Go for expressions, statements, blocks and functions (declared and used variables, fields of the declared structs, functions of the package and of the libraries) | induction on the attributes and parameters; each fragment is shown to be accepted in any context that declares the variables that it needs; the set of signatures is computed before the bodies |
| C84 | `JsonRunSpec`: an interpreter of the statements of `JsonCodeModel` (blocks, variables, assignments, loops, calls between the generated functions, nil pointers, maps enumerated in any order, the methods of jsoniter); the theorems relate the execution of the functions of the version with the documents of C34 | each group of statements is shown to write what `JsonModel` says and to leave the variables as expected (`emits`), by induction on attributes, items and entries; the depth of the calls by induction on the value |
| C85 | the same interpreter, for the functions that read: the iterators of jsoniter, loops that end with `break`, switches, setters of lists, allocation of structures (`declares` says which structures the package has); the theorems relate the execution with the reader of C34–C36 (`JsonModel`) and with the documents | induction on the number of steps of the reader, for five kinds of loops and values at the same time (`JsonRunProofs9` to `JsonRunProofs11`); the number of steps that a document needs is known from its length |
| C86 | the same interpreter, for the functions that write the bodies of the requests; `carries` (`JsonMethodsSpec`) says what the fields of the structure of a request contain: pointers for scalars, nil for the parameters that haven't been given; the theorems relate the execution with `RequestModel.write_request` (C40) and with the documents | case analysis on the methods, induction on the parameters of actions, with the theorems about the values of C84 (`JsonMethodsProofs` to `JsonMethodsProofs3`) |
| C87 | the same interpreter, for the functions that read the bodies of the responses; these functions receive a pointer to the response, so `receive` (`JsonMethodsSpec`) gives the structure after the execution too; `filled` says what its fields contain; the theorems relate the execution with `RequestModel.read_response` (C40) and with the documents that represent values | induction on the steps of the loop that reads the members, with one relation between the code of each case and its model; the theorems about the values of C85; case analysis on the methods (`JsonMethodsProofs4` to `JsonMethodsProofs6`); inversion of the generation for the statements that return errors (`JsonMethodsProofs7`) |
| C51, C57 | `BufferModel` | buffers of the generators, `language.Writer` | case analysis on a model of the file system |

## Trusted base

* The kernel of Coq 8.16.1 (and `vm_compute`, used in examples and refutations).
* `Print Assumptions` answers `Closed under the global context` for every theorem of the `Prop*.v` files: no axioms are used, not even
  those of the standard library.
* The correspondence between the model and the code of `/repo`, which was written by reading the code: nothing was executed.
  For the generated code the model describes the behaviour of the instantiated templates; the template engine itself
  (`text/template`) isn't modelled.
* The behaviour of the parts of the Go standard library and of jsoniter (v1.1.12) that the code calls, written from
  their documentation and sources as known: `strings`, `strconv`, `time` (RFC 3339, calendar), `sort`, `path`, `net/url` (`Values.Encode`), `bufio.Scanner`
  and `bufio.Reader.Peek`, `net/http.Header`, and the streams and iterators of jsoniter. The limit of ten thousand levels of nesting of jsoniter
  isn't modelled, and its iterators accept lone surrogates that the model rejects.
* The meaning of the Go statements that the functions that read and write JSON use (C84 to C87, `JsonRunSpec`), written from the specification of the language: pointers to
  structures are the structures, as there aren't two variables for the same one that is modified; the integers have no limits (they are positions); the writers don't fail; there is
  one stream or iterator at a time; the execution ends when an iterator finds an error, while the real code goes on, ignoring what it reads, and returns the
  error that the iterator stores (`C87_errors_returned` says that all the functions return it); maps are kept sorted by key, which isn't visible because the code enumerates them in any order.
* The rules of the Go language for declarations, types and statements (C72, C73, C82 and C83), written from its specification; only the rules that the
  generated code needs are included, so that what they don't accept isn't always wrong, except in the theorems that say that code is rejected.

The following are parameters of the model (variables of sections, so that the theorems hold for all of them, with the
hypotheses written in each theorem): the conversion of `float64` to text and back (`oracle`, condition `faithful`), the
iteration order of maps, the text of values of type `interface{}` in queries, the result of a decoder on incomplete
`interface{}` values, the spare capacity of slices after `append`, the clock and the passing of time during a poll, the HTTP
transport, what the parser of ANTLR reports and visits after a syntax error (it always reports an error), the trees of directories, the Go generators and
`goimports` in the theorems about the command that runs them.

## What isn't modelled

* The tables of the lexer and the parser generated by ANTLR (`model_lexer.go`, `model_parser.go`) and its recovery from errors: `SyntaxModel.v`
  models what the grammars mean (longest match, keywords before names, rest of the text ignored because the main rule doesn't end with `EOF`), the
  result of a text with syntax errors is an error without its messages, and characters outside ASCII are accepted only in strings and comments. The model
  of the reader starts from syntax trees; `ToolModel.v` composes it with the language and with the directories.
* The model of the reader (`ReaderModel.v`) ignores the `@ref` annotation; what it does to the types in memory is modelled separately (`RefModel.v`), without the messages of the nested reader, and isn't composed with the generators.
* The parsing of the command line (cobra; the commands are modelled from the values of their options), symbolic links, the template engine, `gofmt` and `goimports`; Go code that doesn't compile is only considered in C72 and C73, about repeated names, in C82, about the types of attributes and parameters, and in C83, about the functions that read and write JSON; the bodies of the clients, servers and metrics aren't checked.
* How a Markdown reader shows the pages of the documentation.
* Goroutines and the contexts of the clients, except for the deadline of a poll.
* Integer overflow: integers of the generated code are Coq integers, with explicit ranges in the theorems about parsing.

## Findings

Each of these is proved by the theorem in parentheses; the statement of the property carries the condition that excludes it.

1. `ParseUsingCase` repeats the whole text of an identifier that starts with a lower case letter (`C05_lower_case_identifier_refuted`); different identifiers can have the same snake case (`C05_snake_injective_refuted`).
2. `Compare` ignores the initialism flag, `Equals` doesn't (`C02_compare_zero_implies_equal_refuted`).
3. `concepts.Version.Errors` panics when a version has two errors or more, because the comparison uses a shadowed field that is never set (`C07_errors_refuted`).
4. Undefined names are shared between versions (`C14_*_refuted`, `C59_all_defined_refuted`).
5. A declared type can take the name of a list type (`C12_derived_names_refuted`, `C15_hijacked_list_refuted`).
6. `Read` panics for versions without root and for reachable locators without target (`C62_read_terminates`).
7. Annotations whose name isn't a string give names like `%!s(int=5)` (`C26_numeric_names_refuted`).
8. A class with 61 attributes is accepted but the mask of the last one doesn't fit (`C27_accepted_masks_fit_refuted`).
9. `Link(false)` doesn't clear the flag, nil lists are present (`C29_*_refuted`); `Build` fails for some values (`C30_build_total_refuted`); `Copy` loses empty maps, the link flag of lists and nil elements (`C31_*_refuted`); the builder shares the maps given to its setters, and `Items` returns the slice of the list (`C29_map_arguments_refuted`, `C33_items_are_shared_refuted`).
10. Nil elements give panics or invalid documents (`C34_nil_elements_refuted`); fractions of seconds, links of lists, nil attributes and empty keys don't survive (`C35_*_refuted`); `interface{}` maps aren't sorted (`C37_interface_maps_refuted`).
11. Identifiers aren't escaped in URLs (`C39_identifiers_refuted`); locators with the same label hide each other in the metrics (`C39_tree_refuted`).
12. Requests whose body isn't set panic, errors with an empty body aren't reported, an empty body is an error for the metadata, parameters called `status` or `err` are lost (`C40_*_refuted`).
13. A poll that reaches its deadline returns the last result without an error (`C41_accepted_on_success_refuted`).
14. Errors with a nil timestamp panic or can't be read back (`C44_nil_timestamp_refuted`, `C45_nil_timestamp_refuted`); the status written by `SendError` isn't always the identifier (`C46_status_is_identifier_refuted`).
15. OpenAPI documents can have repeated names: properties, parameters, schemas and operations (`C47_different_names_refuted`, `C48_*_refuted`, `C49_*_refuted`).
16. The last line of a generated file is lost when the text doesn't end with a blank line (`C50_last_line_refuted`), and lines longer than 64 KiB truncate files (`C51_damaged_file_refuted`, `C55_long_lines_refuted`).
17. A blank first line in a documentation comment makes the reader panic (`C53_blank_first_line_refuted`); summaries join words and can have several lines (`C54_*_refuted`).
18. The text after the first thing that isn't a declaration is ignored without an error (`C66_ignored_text_refuted`); keywords can't be used as names (`C67_keywords_refuted`); escaped double quotes can't be used in literals (`C68_escaped_quotes_refuted`); the documentation of a declaration goes to its first member when both are in the same line or there is a comment after the brace (`C69_*_refuted`).
19. The import of the metrics package is the one of the helpers (`C57_metrics_import_refuted`).
20. The OpenAPI schemas don't match what the generated code writes for lists of links (`C70_links_refuted`), integers of more than 32 bits (`C70_integers_refuted`) and values of type `interface{}` that aren't objects (`C70_interfaces_refuted`); and the schemas of classes and structs have no `type`, so they accept any value that isn't an object (`C70_exactly_refuted`).
21. A class imported with `@ref` that contains itself makes the reader loop (`C71_import_loops`); unknown types are ignored (`C71_unknown_type`), other wrong references and nested references panic (`C71_crash`); when the type of a link is imported as well, the package used for the link depends on the order of the attributes, and it can be a package that doesn't have the type or the package itself (`C71_links_package_refuted`, `C71_links_order_refuted`).
22. Models that are accepted give Go code that can't be compiled: attributes `Foo` and `GetFoo`, an attribute `Empty` or `Build`, an attribute `ID` of a class (`C72_object_members_refuted`); parameters `Header` and `Path` (`C72_exchange_members_refuted`), because the lists of names to avoid only have `err` and `status`; a method `Get` of the root resource, and a method `Poll` beside `Get` (`C72_client_members_refuted`).
23. A parameter `Status` or `Err` is stored in the field `status_` or `err_`, and the code that reads it uses `status` or `err` (`C72_parameter_fields_refuted`).
24. The package of a version can have two declarations with the same name: classes `Foo` and `FooLink`, the value `Bar` of the enumerated type `Foo` and a type `FooBar`, structs `Foo` and `FooList`, the method `BarRun` of `Foo` and the method `Run` of `FooBar` (`C73_declarations_differ_refuted`). A type called `Metadata`, or types whose names only differ in the case of letters, replace the files of each other (`C73_files_differ_refuted`).
25. The files of the documentation don't contain the service or the version, so in a model with several versions at least the page of the root of one is always lost (`C74_versions_clash`), and so are those of types with the same name (`C74_all_pages_refuted`).
26. The documentation index has links to files that don't exist for scalars, lists and maps (`C75_links_refuted`). Summaries of several lines without a dot break the tables (`C76_rows_refuted`), the documented names ignore the `@json` annotation (`C76_names_refuted`), and the attributes `kind`, `id` and `href` of a class without other attributes aren't documented (`C76_fixed_attributes_refuted`).
27. The lists of links that conform to the published schemas are arrays, and the generated code rejects them all (`C77_links`); null is accepted as the value of strings, enumerated values, objects, lists and maps, although the schemas don't allow it (`C77_objects`).
28. The reader accepts classes with attributes named `ID`, `Kind` or `Href`, whose members can't be told from the ones that all classes have (`C78_names_refuted`), and lists of lists, which the properties of the generated code exclude (`C78_lists_refuted`).
29. The help of the commands says that files are accepted as models, that only files with extension `.model` are loaded, and that sub directories are loaded: files are rejected (`C79_file_rejected`), all regular files of a version are loaded, so that a `README.md` makes the read fail (`C79_extension_refuted`), and directories inside a version are ignored (`C79_sub_directories_refuted`).
30. Some models that the reader accepts give Go code that doesn't compile, without any error: the setter of a map parameter of a request takes the address of the map, and the field isn't a pointer (`C82_map_requests_rejected`); the getter of an interface parameter of a response dereferences a field of type `interface{}` (`C82_interface_responses_rejected`); the type of a link to a list of scalars is written as `*.StringList` (`C82_scalar_links_rejected`). Lists and maps of lists or maps are only rejected when the Go code is generated (`C82_nested_reported`). The keys of all the maps are strings, whatever the type of the index is.
31. A struct (not a class) without attributes is accepted by the reader, and the function that writes it declares a variable `count` that isn't used, so that the generated package doesn't compile (`C83_empty_structs_rejected`). The JSON code of a parameter called `status` or `err` uses a field that the structs of the responses use for other things, and the code of `get` uses the first parameter called `body` even if it is only an input parameter; C83 excludes them.

Others, not formalised: the message for an incorrect string literal never contains the literal; `Locator.SetVariable` ignores its argument; `MetadataRequest` and `PollResponse` getters aren't nil-safe;
the documentation and attributes of a class with `@ref` are dropped when the referenced class has the same name, and the class isn't replaced otherwise; a Post method with a scalar input sends it in the query and sends no body.

## Mutation testing

`seeded/LOG.jsonl` has one line for each wrong program that was tried: the definition edited, the edit, the claim it breaks, the
theorems that failed and those that were tightened because of it. Mutants are applied to a copy of the model; the
theorems reported as failed are those that no longer compile or that depend on a lemma that no longer compiles.
