{"id": "C01", "title": "JSON pointer compose/split round trip", "statement": "For every list of tokens and every non-empty base, splitting the pointer obtained by composing the tokens onto the base gives the tokens of the base followed by exactly the given tokens; without a base the same holds for every token list except the single empty token (which composes to the empty pointer). Tokens may contain \"/\", \"~\", \"~0\", \"~1\" in any combination.", "quantifier": "all token lists over all strings, all bases", "why_tests_cant": "the escape sequences interact (~01, ~10, ~~1 ...), so only a proof over all strings excludes a token that is split or decoded wrongly", "anchors": ["pyopenapi/utils.py:jp_compose", "pyopenapi/utils.py:jp_split"]}
{"id": "C02", "title": "jp_split is RFC 6901 decoding", "statement": "For every string, each reference token returned by jp_split is the one-pass RFC 6901 decoding of the corresponding \"/\"-separated piece; and for every canonically escaped pointer, composing the split tokens gives the pointer back.", "quantifier": "all strings", "why_tests_cant": "two sequential replace() calls equal a one-pass decoder only because no replacement can create a new escape; this must be shown for every string", "anchors": ["pyopenapi/utils.py:jp_split", "pyopenapi/utils.py:jp_compose"]}
{"id": "C03", "title": "Pointers of different locations never collide", "statement": "Composition of pointers is associative (composing onto a composed pointer equals composing all tokens at once), and two different token lists under the same base never give the same pointer.", "quantifier": "all pairs of token lists, all bases", "why_tests_cant": "injectivity quantifies over all pairs of paths", "anchors": ["pyopenapi/utils.py:jp_compose"]}
{"id": "C04", "title": "Scope names compose and split", "statement": "For every separator and all names not containing characters that could complete a separator, splitting a composed scope gives the names back, composition is associative, and an absent scope/name is neutral.", "quantifier": "all separators and name lists", "why_tests_cant": "separator overlap with name characters depends on arbitrary strings", "anchors": ["pyopenapi/utils.py:scope_compose", "pyopenapi/utils.py:scope_split"]}
{"id": "C05", "title": "ScopeDict lookup decision rule", "statement": "For every dictionary and key: an exact key returns its own value; otherwise a unique key ending with the requested text returns that value; with several such keys the one whose last scope name equals the requested last name is returned if unique, else ValueError; with none, KeyError. The outcome does not depend on the insertion order of the dictionary.", "quantifier": "all dictionaries, keys and separators, all iteration orders", "why_tests_cant": "iteration order and the set of colliding keys are unbounded", "anchors": ["pyopenapi/utils.py:ScopeDict.__getitem__"]}
{"id": "C06", "title": "Dereferencing always terminates and detects exactly the cycles", "statement": "For every graph of objects linked by $ref, deref terminates: it returns the last object of the reference chain if the chain is finite, and raises CycleDetectionError exactly if the chain revisits an object (or one already registered with the passed guard).", "quantifier": "all finite object graphs, all starting objects and guards", "why_tests_cant": "non-termination on a cyclic graph cannot be observed by finitely many examples", "anchors": ["pyopenapi/utils.py:deref", "pyopenapi/utils.py:CycleGuard"]}
{"id": "C07", "title": "Reference normalisation rules", "statement": "For every $ref: a reference with a scheme is returned unchanged; a local reference \"#...\" is attached to the base url; a relative file reference is resolved against the directory of the base url, with \".\" and \"..\" removed; normalising the result again against any base changes nothing. For a base document directly below the root of its host, the result has a doubled or missing slash and names a different resource.", "quantifier": "all references and base urls in the modelled url grammar", "why_tests_cant": "combination of reference shape and base url is unbounded", "anchors": ["pyopenapi/utils.py:normalize_jr"]}
{"id": "C08", "title": "Path normalisation removes dot segments", "statement": "For every absolute path, derelativise_url yields a path with no \".\", \"..\" or \"...\" segments, leaves paths without dot segments unchanged, is idempotent, cancels \"x/..\" anywhere in the path, never climbs above the root, and keeps scheme and host.", "quantifier": "all urls in the modelled grammar", "why_tests_cant": "arbitrary nesting of dot segments", "anchors": ["pyopenapi/utils.py:derelativise_url"]}
{"id": "C09", "title": "Splitting a JSON reference into url and pointer", "statement": "For every canonical absolute url u without fragment and every fragment f, jr_split(u + \"#\" + f) = (u, \"#\" + f) and jr_split(u) = (u, \"#\"); a pure \"#f\" reference gives an empty url. Hence re-splitting url + pointer is stable.", "quantifier": "all canonical urls and all fragments", "why_tests_cant": "url structure and fragment text are unbounded", "anchors": ["pyopenapi/utils.py:jr_split", "pyopenapi/utils.py:normalize_url"]}
{"id": "C10", "title": "url_join puts exactly one slash", "statement": "For every base url and every name, url_join keeps scheme, host and query and appends the name to the path separated by exactly one slash, whether or not either side already has one.", "quantifier": "all urls and names", "why_tests_cant": "four slash combinations times arbitrary urls", "anchors": ["pyopenapi/utils.py:url_join"]}
{"id": "C11", "title": "url_dirname strips exactly resource file names", "statement": "For every url, url_dirname drops the last path segment exactly when the path ends with json or yaml, and otherwise returns the url unchanged.", "quantifier": "all urls in the modelled grammar", "why_tests_cant": "suffix decision over all paths", "anchors": ["pyopenapi/utils.py:url_dirname"]}
{"id": "C12", "title": "patch_path always yields a loadable file name", "statement": "For every base path and path, the patched path ends with .json, .yaml or .yml, extends the original path, and patching twice is the same as patching once.", "quantifier": "all base paths and paths", "why_tests_cant": "extension precedence over arbitrary strings", "anchors": ["pyopenapi/utils.py:patch_path"]}
{"id": "C13", "title": "Spec version detection precedence", "statement": "For every loaded document the version reported is that of swaggerVersion if present, else swagger, else openapi, else none; other keys never matter.", "quantifier": "all dict documents", "why_tests_cant": "must hold for any combination of keys", "anchors": ["pyopenapi/utils.py:get_swagger_version"]}
{"id": "C14", "title": "compare_container reports no difference exactly for equal content", "statement": "For all JSON documents without include/exclude filters: if comparing two documents completes with no reported difference then they are equal up to dict order and up to reordering of lists whose elements are not dicts; a document whose lists are homogeneous and sortable compares to itself with no difference. A list of booleans and the list of the integers equal to them have no difference. With include/exclude filters, dict entries whose keys are not looked at (excluded, or not among a non-empty include list), at any depth, do not change at which paths differences are reported nor whether the comparison raises (dicts inside lists of other lists, which are sorted as a whole, excepted).", "quantifier": "all pairs of JSON documents", "why_tests_cant": "recursive comparison over unbounded documents", "anchors": ["pyopenapi/utils.py:compare_container"]}
{"id": "C15", "title": "Field access contract", "statement": "For every object, reading a declared field returns the stored value if the key is set, else the default, raising if the field is required and missing or restricted and present; writing a writable field is seen by later reads (also under its renamed alias) and changes no other field; a read-only field cannot be written.", "quantifier": "all objects, field descriptors and write histories", "why_tests_cant": "interleavings of writes and reads", "anchors": ["pyopenapi/migration/spec/obj.py:field", "pyopenapi/migration/spec/obj.py:rename", "pyopenapi/migration/spec/obj.py:internal"]}
{"id": "C16", "title": "Load then dump is lossless on conforming documents", "statement": "For every class of the three object tables and every document that uses only declared keys, with no null values, no empty containers and no boolean additionalProperties, construction succeeds and dump returns a document equal to the input (dict order aside).", "quantifier": "all classes, all conforming documents of any depth", "why_tests_cant": "documents nest without bound", "anchors": ["pyopenapi/migration/spec/obj.py:Base2Obj.dump", "pyopenapi/migration/spec/obj.py:_List.dump", "pyopenapi/migration/spec/obj.py:_Map.dump", "pyopenapi/migration/versions/v2_0/objects.py", "pyopenapi/migration/versions/v3_0_0/objects.py"]}
{"id": "C17", "title": "A dumped Swagger 2.0 document can be reloaded and dumps to itself", "statement": "For every Swagger 2.0 object that can be dumped, loading the dump succeeds and dumping again gives an equal document. In every version the only way the reload can fail is a missing required child, and in 3.0.0 this does happen: dump drops an empty (or null) container that the class requires.", "quantifier": "all loadable documents", "why_tests_cant": "fixpoint over unbounded documents", "anchors": ["pyopenapi/migration/spec/obj.py:Base2Obj.dump", "pyopenapi/migration/versions/v3_0_0/objects.py:RequestBody"]}
{"id": "C18", "title": "What dump silently loses", "statement": "For every object, dump contains exactly the non-empty children (dumped) and the declared fields that are present and not null, each key once, nothing else: undeclared keys, null fields and empty child containers are lost. additionalProperties:false is lost and additionalProperties:true makes dump fail; the content of a 3.0.0 Header is always lost.", "quantifier": "all objects", "why_tests_cant": "must hold for every document", "anchors": ["pyopenapi/migration/spec/obj.py:Base2Obj.dump", "pyopenapi/migration/versions/v2_0/objects.py:BoolOrSchema"]}
{"id": "C19", "title": "Object resolution agrees with JSON pointer evaluation", "statement": "For every built object and every token list that addresses an object-valued location through declared names, resolve() returns exactly the object built from the JSON value that RFC 6901 evaluation of the tokens on the raw document yields; token lists ending at a string inside a list or map raise instead of returning the string.", "quantifier": "all documents, all token lists", "why_tests_cant": "all locations of all documents", "anchors": ["pyopenapi/migration/spec/obj.py:Base2Obj.resolve", "pyopenapi/migration/spec/obj.py:_Map.resolve", "pyopenapi/migration/spec/obj.py:_List.resolve"]}
{"id": "C20", "title": "Every object knows its own JSON pointer", "statement": "For every built object tree and every descendant, get_path() equals the pointer composed of the root path and the tokens leading to that descendant, so splitting it and resolving from the root returns the same object.", "quantifier": "all documents, all descendants", "why_tests_cant": "unbounded depth and arbitrary (escaped) keys", "anchors": ["pyopenapi/migration/spec/obj.py:_Base.get_path", "pyopenapi/migration/spec/obj.py:child", "pyopenapi/migration/spec/obj.py:_Map.__init__", "pyopenapi/migration/spec/obj.py:_List.__init__"]}
{"id": "C21", "title": "merge_children only fills gaps", "statement": "For all objects of the same class, merge_children keeps every non-empty child of the receiver, takes each missing/empty child from the other object, changes no field, leaves the other object unchanged, and merging twice equals merging once; it raises exactly if it would have to take over a primitive (additionalProperties: true).", "quantifier": "all object pairs", "why_tests_cant": "all combinations of present/absent children", "anchors": ["pyopenapi/migration/spec/obj.py:Base2Obj.merge_children"]}
{"id": "C22", "title": "compare detects differences", "statement": "compare is reflexive for every object whose fields can be read (no required field missing). If it answers True the two trees have objects of the same class at the same locations, lists of the same length and maps with the same keys, and their fields agree up to extra elements at the end of lists in the other object. It ignores everything after the first element of a list of strings, ignores extra tail elements of raw lists (and raises IndexError the other way round), and raises when a required field is missing.", "quantifier": "all object pairs", "why_tests_cant": "soundness quantifies over all pairs", "anchors": ["pyopenapi/migration/spec/obj.py:Base2Obj.compare", "pyopenapi/migration/spec/obj.py:_List.compare", "pyopenapi/migration/spec/obj.py:_Map.compare"]}
{"id": "C23", "title": "Children listing over mutation histories", "statement": "For every sequence of child attachments, list appends, map assignments and listings, get_children() of an object reflects its current children provided every mutation went through that object itself; a mutation made through a nested container after the parent was listed leaves the parent listing stale.", "quantifier": "all histories of mutation and query", "why_tests_cant": "depends on the whole history, not one state", "anchors": ["pyopenapi/migration/spec/obj.py:get_children", "pyopenapi/migration/spec/obj.py:invalidate_children_cache", "pyopenapi/migration/spec/obj.py:attach_child", "pyopenapi/migration/spec/obj.py:_List.append", "pyopenapi/migration/spec/obj.py:_Map.__setitem__"]}
{"id": "C24", "title": "Overriding children at construction", "statement": "For every document and every override map whose pointers consist of non-empty tokens without \"/\" and \"~\", none above another, the constructed tree contains the given objects at those of the locations that exist in the plain tree or are declared children, is identical everywhere else, and construction succeeds if all locations do; overrides below a key containing \"/\" (such as a path) are not honoured because the remainder is decoded twice.", "quantifier": "all documents and override maps", "why_tests_cant": "unbounded depth of override pointers and arbitrary keys", "anchors": ["pyopenapi/migration/spec/obj.py:_Base.__init__", "pyopenapi/migration/spec/obj.py:child"]}
{"id": "C25", "title": "Construction succeeds exactly on well-shaped documents", "statement": "For every class and JSON document, construction succeeds if and only if every map child is a dict, every list child a list, every string slot a string, every reference/boolean alternative matches and every required child is present, at every depth; where an object is expected a non-dict is accepted exactly if no declared child name occurs in it. Failures raise and never yield a partial object.", "quantifier": "all classes and JSON documents", "why_tests_cant": "recursive shape condition", "anchors": ["pyopenapi/migration/spec/obj.py:_List.__init__", "pyopenapi/migration/spec/obj.py:_Map.__init__", "pyopenapi/migration/spec/obj.py:child", "pyopenapi/migration/versions/v2_0/objects.py:is_str"]}
{"id": "C26", "title": "Tree traversal visits every object exactly once", "statement": "For every object tree and leaf set the default traversal terminates. For every tree loaded from a document in which no list or map mixes objects with containers (always so in 1.2 and 2.0) it yields the root first and then exactly the objects that have no leaf-class object above them, no object twice. In 3.0.0 a callback reference stored under \"x/y\" hides the path item \"y\" of callback \"x\".", "quantifier": "all object trees and leaf sets", "why_tests_cant": "stack-based traversal over unbounded trees", "anchors": ["pyopenapi/migration/scan.py:default_tree_traversal"]}
{"id": "C27", "title": "Traversal paths are JSON pointers", "statement": "For every tree loaded from a document the paths the traversal yields are pairwise distinct (no list or map mixing objects with containers), and the path of an object reached without going through a container inside a container is the object's own JSON pointer; in 2.0 this holds for every object. Under nested containers (callbacks, 1.2 authorizations) the inner key is escaped twice and the path is not the object's pointer.", "quantifier": "all object trees", "why_tests_cant": "arbitrary keys and depths", "anchors": ["pyopenapi/migration/scan.py:default_tree_traversal", "pyopenapi/migration/spec/obj.py:get_children"]}
{"id": "C28", "title": "Handlers run once per object of their exact class", "statement": "For every route set and object tree, scan calls, for each visited object in traversal order and each route in order (only the first dispatcher of a route object counts), exactly the handlers registered for exactly that class, in registration order, and passes each result to the result function; an exception ends the scan; registering for a class that is no model class and scanning None raise ValueError. The older Scanner does the same along the base classes.", "quantifier": "all route sets, registrations and trees", "why_tests_cant": "any number of handlers and objects", "anchors": ["pyopenapi/migration/scan.py:scan", "pyopenapi/migration/scan.py:Dispatcher", "pyopenapi/migration/scan.py:_handle_cls_without_app"]}
{"id": "C29", "title": "Store lookup", "statement": "For every store and query, get returns none iff no pointer cached for that url and version is a string prefix of the queried pointer; otherwise it returns what resolving the remaining tokens in the first such cached object gives. A cached pointer that is a string prefix but not a segment prefix (Pet / PetOwner) yields the wrong object.", "quantifier": "all stores, urls, pointers, versions", "why_tests_cant": "arbitrary contents and insertion orders", "anchors": ["pyopenapi/migration/store.py:SpecObjStore.get", "pyopenapi/migration/store.py:SpecObjStore.set"]}
{"id": "C30", "title": "Stored objects are isolated by url and version", "statement": "For every history of calls (set, get_under with or without removal, update_routes): calls about other urls never influence a lookup; what is cached for a version is never changed by a call about another version; a lookup with at most one matching cached pointer is not influenced by other versions either, but with several matching pointers an earlier set for another version can decide which of them answers; setting an entry again replaces exactly that entry.", "quantifier": "all histories of store calls, urls, pointers, versions", "why_tests_cant": "history property", "anchors": ["pyopenapi/migration/store.py:SpecObjStore.set", "pyopenapi/migration/store.py:SpecObjStore.get"]}
{"id": "C31", "title": "Collecting and removing objects below a pointer", "statement": "For every store, get_under returns the objects cached for that url and version whose pointer starts with the given one, keyed by the remainder (exactly those as long as the keys are distinct, in particular when all of them continue with a slash; objects whose keys coincide overwrite each other); it returns None exactly if nothing was ever cached for the url; with removal those and only those entries disappear; an empty pointer with removal is rejected and changes nothing.", "quantifier": "all stores and queries", "why_tests_cant": "arbitrary contents", "anchors": ["pyopenapi/migration/store.py:SpecObjStore.get_under"]}
{"id": "C32", "title": "get_until returns the newest available version", "statement": "For every store, list of versions and bound, get_until returns the object of the newest version between the start version and the bound for which a lookup of the relocated pointer succeeds, together with that pointer and version, and nothing if none exists.", "quantifier": "all stores, version lists and bounds", "why_tests_cant": "arbitrary version lists", "anchors": ["pyopenapi/migration/store.py:SpecObjStore.get_until"]}
{"id": "C33", "title": "Pointer relocation picks the longest route, independent of order", "statement": "For every (nested) route map and pointer, the relocated pointer is determined by the longest matching route key at each level: the matched part is replaced by the target (relative to the outer keys unless absolute) and the remaining tokens are kept; it never raises and does not depend on the iteration order of the maps; a pointer matching no route is unchanged. A key ending inside a token also matches (body_1 / body_10).", "quantifier": "all route maps, pointers and iteration orders", "why_tests_cant": "dict order is arbitrary on old interpreters and maps are unbounded", "anchors": ["pyopenapi/migration/store.py:SpecObjStore._patch_jp"]}
{"id": "C34", "title": "Relocation composes over versions", "statement": "For every history and ascending list of versions, relocating from version a to c equals relocating from a to b and then from b to c for all known b, c with a <= b <= c; a single step applies the routes registered for that version; relocating to the same or an older version is the identity; urls without routes are never relocated; an unknown target version is an error.", "quantifier": "all stores, pointers, version triples", "why_tests_cant": "arbitrary version sequences", "anchors": ["pyopenapi/migration/store.py:SpecObjStore.relocate", "pyopenapi/migration/store.py:SpecObjStore.update_routes"]}
{"id": "C35", "title": "Each document is fetched once and pointers are evaluated on the raw document", "statement": "For every history of resolve calls on a Resolver, each with arbitrary behaviour of the getters at that time: after a url's first successful non-empty load no further request for it is made and the cache no longer changes; until then every call makes a request, a failure is passed on and an empty document raises; the result is the RFC 6901 evaluation of the pointer on the first document loaded (list indices are read with int(), so negative indices are accepted). The getter asked is the one of the call, else the local file for a file url, else the default getter, else the network.", "quantifier": "all histories of resolve calls and loader behaviours", "why_tests_cant": "history property", "anchors": ["pyopenapi/migration/resolve.py:Resolver.resolve"]}
{"id": "C36", "title": "collectionFormat to style/explode table", "statement": "For every collectionFormat, location and type: csv, multi, ssv and pipes give exactly the (style, explode) pair of the documented table for the location, an array sent with that pair in 3.0 has the same wire form as in 2.0, ssv and pipes raise SchemaError exactly when they are not used for a query array, and every other format gives no style at all (so tsv, and the default csv when the keyword is absent, are serialized differently after migration). Every 2.0 parameter so converts, keeping its other keywords, or raises SchemaError for that reason only.", "quantifier": "all strings for the three arguments", "why_tests_cant": "decision table over arbitrary strings", "anchors": ["pyopenapi/migration/versions/v2_0/scanner/upgrade/converters.py:to_style_and_explode"]}
{"id": "C37", "title": "Schema conversion keeps every constraint at every depth", "statement": "For every well-formed Swagger 2.0 schema, loading and conversion succeed and the converted 3.0 schema has the same value for every declared validation keyword, the same properties, items, allOf members and schema-valued additionalProperties converted likewise at every depth, and contains no other keyword; every subschema is found converted at the same pointer.", "quantifier": "all schemas of any depth", "why_tests_cant": "recursive structure", "anchors": ["pyopenapi/migration/versions/v2_0/scanner/upgrade/converters.py:to_schema", "pyopenapi/migration/versions/v2_0/scanner/upgrade/converters.py:_generate_fields", "pyopenapi/migration/versions/v2_0/scanner/upgrade/constants.py"]}
{"id": "C38", "title": "Schema conversion preserves validation", "statement": "For every schema of a converted document without file types and every JSON instance, the converted schema accepts the instance if and only if the original one does (over the modelled keywords; a $ref to a definition means the definition in the old document and whatever its relocated pointer points to in the new document).", "quantifier": "all schemas and all instances", "why_tests_cant": "semantic equivalence over infinitely many instances", "anchors": ["pyopenapi/migration/versions/v2_0/scanner/upgrade/converters.py:to_schema"]}
{"id": "C39", "title": "Each parameter ends up in exactly one place", "statement": "For every operation, each Swagger 2.0 parameter is either kept, in order, as a 3.0 parameter (path, query, header) or merged into the request body (body, formData, file), never both or neither; references to non-body parameters stay references.", "quantifier": "all parameter lists", "why_tests_cant": "arbitrary lists and kinds", "anchors": ["pyopenapi/migration/versions/v2_0/scanner/upgrade/converters.py:from_parameter", "pyopenapi/migration/versions/v2_0/scanner/upgrade/converters.py:to_operation"]}
{"id": "C40", "title": "Form parameters merge into one request body", "statement": "For every list of formData parameters with distinct names and the same set of content types, the resulting body contains, for every content type, exactly these names as properties, the required ones in order in its required list, and an encoding per property; a duplicated name raises SchemaError.", "quantifier": "all lists of form parameters and consumes lists", "why_tests_cant": "fold over arbitrary lists", "anchors": ["pyopenapi/migration/versions/v2_0/scanner/upgrade/converters.py:to_request_body", "pyopenapi/migration/versions/v2_0/scanner/upgrade/converters.py:to_media_type"]}
{"id": "C41", "title": "At most one body parameter, position dependent", "statement": "For every parameter list, a body parameter following any other body or form parameter raises SchemaError, while a form parameter following a body parameter is merged without error unless its name clashes; no other exception is possible for well-formed parameters.", "quantifier": "all parameter lists", "why_tests_cant": "order of arbitrary lists", "anchors": ["pyopenapi/migration/versions/v2_0/scanner/upgrade/converters.py:to_request_body"]}
{"id": "C42", "title": "Operations under one path item share the path level body", "statement": "For every path item with body/form parameters at path level, the body of every operation is one shared structure: a form parameter of one operation appears in the body of all other operations, and the same form parameter name in two operations makes the conversion fail; without path level body parameters operations do not influence each other.", "quantifier": "all path items", "why_tests_cant": "aliasing shows only for particular combinations of operations", "anchors": ["pyopenapi/migration/versions/v2_0/scanner/upgrade/converters.py:to_path_item", "pyopenapi/migration/versions/v2_0/scanner/upgrade/converters.py:to_operation", "pyopenapi/migration/versions/v2_0/scanner/upgrade/converters.py:to_request_body"]}
{"id": "C43", "title": "Media type selection", "statement": "For every consumes list and parameter kind, the content types of the body are the consumes list itself for plain bodies, its intersection with the file/form types for file/form parameters, and the documented default when that is empty; the result is never empty.", "quantifier": "all consumes lists", "why_tests_cant": "arbitrary lists", "anchors": ["pyopenapi/migration/versions/v2_0/scanner/upgrade/parameter_context.py:ParameterContext.get_valid_mime_type"]}
{"id": "C44", "title": "Response conversion", "statement": "For every response: a reference to a response without schema stays a reference; a schema is emitted once under every produced media type (a default one if none is given), a file schema under application/octet-stream; every header is converted under its name.", "quantifier": "all responses and produces lists", "why_tests_cant": "arbitrary lists and headers", "anchors": ["pyopenapi/migration/versions/v2_0/scanner/upgrade/converters.py:to_response", "pyopenapi/migration/versions/v2_0/scanner/upgrade/converters.py:to_header"]}
{"id": "C45", "title": "Security scheme conversion", "statement": "For every security scheme, description, name and in are kept and an oauth2 scheme keeps urls and scopes under its flow name; but flow names are not translated, so accessCode and application flows are not visible in the loaded 3.0 object, and basic keeps the type basic.", "quantifier": "all security schemes", "why_tests_cant": "every flow name", "anchors": ["pyopenapi/migration/versions/v2_0/scanner/upgrade/converters.py:to_security_scheme", "pyopenapi/migration/versions/v2_0/scanner/upgrade/converters.py:to_flows", "pyopenapi/migration/versions/v3_0_0/objects.py:OAuthFlows"]}
{"id": "C46", "title": "No path, definition, response or scheme is lost in migration", "statement": "For every Swagger 2.0 document which converts, the result has exactly the same path names, schema names, response names, security scheme names (in order) and tags; parameter names are split between components/parameters and components/requestBodies; every operation is found converted under its path and method; nothing else is added; a document with a path named x-... does not convert.", "quantifier": "all documents", "why_tests_cant": "unbounded documents", "anchors": ["pyopenapi/migration/versions/v2_0/scanner/upgrade/converters.py:to_openapi"]}
{"id": "C47", "title": "Migrated references land on the migrated object", "statement": "For every converted document and every definition name (including names needing escapes and the empty name), relocating its 2.0 pointer or the pointer of any subschema below it with the relocation table produced by the conversion gives a pointer which evaluates in the converted document to the converted schema; the same holds for the pointer of a response or security definition itself, while pointers below those two are only moved with them.", "quantifier": "all documents, all names, all sub-pointers", "why_tests_cant": "links relocation table, escaping and conversion over all documents", "anchors": ["pyopenapi/migration/versions/v2_0/scanner/upgrade/converters.py:to_openapi", "pyopenapi/migration/store.py:SpecObjStore._patch_jp"]}
{"id": "C48", "title": "Migrated parameter references", "statement": "For every converted document, relocating the pointer of a global parameter gives the place of the converted parameter or request body provided no body parameter name is a string prefix of a kept name and body parameter names need no escaping; likewise a merged path-level parameter leads to the shared body and a kept one before any merged one stays in place. Otherwise (escaped names, shifted indices) the pointer is relocated to a wrong location.", "quantifier": "all documents and names", "why_tests_cant": "prefix collisions depend on the whole name set", "anchors": ["pyopenapi/migration/versions/v2_0/scanner/upgrade/converters.py:to_openapi", "pyopenapi/migration/store.py:SpecObjStore._patch_jp"]}
{"id": "C49", "title": "Server url", "statement": "For every document the server url is the host when no basePath is given, otherwise scheme://host/basePath with the first scheme (https by default), and \"/\" if nothing is known; each operation level scheme yields one server with the same host and path and that scheme. (For a bare host the operation level urls lose the host.)", "quantifier": "all documents", "why_tests_cant": "arbitrary strings", "anchors": ["pyopenapi/migration/versions/v2_0/scanner/upgrade/converters.py:from_swagger_to_server", "pyopenapi/migration/versions/v2_0/scanner/upgrade/converters.py:to_operation"]}
{"id": "C50", "title": "Global security requirements cannot be migrated", "statement": "Every Swagger 2.0 document with a valid non-empty global security requirement is rejected at load time, and any document whose global security is non-empty is rejected when migrating to 3.0.0.", "quantifier": "all documents with global security", "why_tests_cant": "statement about all such documents", "anchors": ["pyopenapi/migration/versions/v2_0/objects.py:Swagger", "pyopenapi/migration/versions/v2_0/scanner/upgrade/converters.py:to_openapi"]}
{"id": "C51", "title": "Migration applies exactly the versions in between, in order", "statement": "For every supported version list, object version and target: an unsupported target is rejected before any step and changes nothing; otherwise migrate_obj calls exactly the upgrade modules of the supported versions from the object's version up to the target, in ascending order, once each, each with what the one before returned (after preparation); after a failure the calls made are a prefix of that sequence; the result of a step is cached at the relocated pointer for its version. The supported versions are the version packages in ascending order.", "quantifier": "all version lists, upgrade modules, objects, targets and application states", "why_tests_cant": "arbitrary version lists", "anchors": ["pyopenapi/migration/base.py:ApiBase.migrate_obj"]}
{"id": "C52", "title": "Path item merging is nearest-wins and cycle safe", "statement": "For every chain of path items linked by $ref, even cyclic, over finitely many objects, merging terminates; each operation (and the parameters and servers) of the result is the one of the nearest item in the chain that has it, the chain ending at the first item met again; fields (summary, description) are never taken over; it raises exactly when resolving raises, a link cannot be resolved or an operation is no object.", "quantifier": "all chains, cyclic or not, all answers of the resolver (which may differ from call to call)", "why_tests_cant": "termination and arbitrary chains", "anchors": ["pyopenapi/migration/versions/comm.py:_merge_path_item"]}
{"id": "C53", "title": "Response codes become strings without loss", "statement": "For every responses map, after the YAML fix no number is left as key, every response is kept in order under the text of its code unless both the number and its text were present (then the last one wins), nothing is added, and fixing twice changes nothing. But when a document is upgraded to 2.0 the fix comes after a full scan that raises AttributeError for every operation with a response code that is no string, so it never changes a document.", "quantifier": "all maps with string, integer, boolean and null keys", "why_tests_cant": "arbitrary key sets", "anchors": ["pyopenapi/migration/versions/v2_0/scanner/yaml.py:YamlFixer"]}
{"id": "C54", "title": "1.2 operations are placed under base path plus path and lower-cased method", "statement": "For every 1.2 application whose operation urls share a prefix naming a host (scheme://host...) or starting with a path, every operation appears in the upgraded document under basePath+path with scheme and host cut off and under its lower-cased method, carrying its tag, id, texts, consumes/produces and authorizations (the declaration's if it has none), parameters and result; if two operations share url and method the last one wins; nothing else is added, and no two paths collide.", "quantifier": "all documents", "why_tests_cant": "arbitrary collections of operations", "anchors": ["pyopenapi/migration/versions/v1_2/scanner/upgrade.py:convert_operation", "pyopenapi/migration/versions/v1_2/scanner/upgrade.py:Upgrade.get_swagger"]}
{"id": "C55", "title": "1.2 models are scoped injectively", "statement": "For every 1.2 application the definitions are exactly the scoped names of the models and their subtypes; each holds exactly the properties of its models, and is an allOf of references to its supertypes. If the first character of the separator does not occur in the resource names, different (resource, model) pairs get different names (not containing the whole separator is not enough: refuted).", "quantifier": "all documents", "why_tests_cant": "arbitrary names", "anchors": ["pyopenapi/migration/versions/v1_2/scanner/upgrade.py:convert_model", "pyopenapi/utils.py:scope_compose"]}
{"id": "C56", "title": "1.2 type mapping", "statement": "For every 1.2 data type, a primitive type name is kept (lower case) and every other type name or $ref becomes a reference to the scoped definition; minimum/maximum become numbers for integer/number and raise for other types; falsy bounds are dropped.", "quantifier": "all data type objects", "why_tests_cant": "arbitrary type names", "anchors": ["pyopenapi/migration/versions/v1_2/scanner/upgrade.py:update_type_and_ref", "pyopenapi/migration/versions/v1_2/scanner/upgrade.py:convert_min_max"]}
{"id": "C57", "title": "1.2 upgrade fails without a common path prefix", "statement": "For every well-formed 1.2 application the upgrade succeeds exactly if the urls of its operations have a non-empty common prefix (so there is at least one operation), and otherwise raises IndexError. (That cutting off the host always keeps the paths apart is refuted for urls like http:a/x.)", "quantifier": "all documents", "why_tests_cant": "depends on the whole set of paths", "anchors": ["pyopenapi/migration/versions/v1_2/scanner/upgrade.py:Upgrade.get_swagger"]}
{"id": "C58", "title": "1.2 authorizations become security definitions", "statement": "For every authorization the type (basicAuth as basic), key name, location, scopes and endpoint urls are carried over under its name (escaped as in JSON pointers), and nothing else is; the oauth2 flow is implicit if a login endpoint exists, else access_code if a token endpoint exists, else absent (which makes the later 3.0 migration raise).", "quantifier": "all authorization objects", "why_tests_cant": "all combinations of optional parts", "anchors": ["pyopenapi/migration/versions/v1_2/scanner/upgrade.py:Upgrade._authorization", "pyopenapi/migration/versions/v2_0/scanner/upgrade/converters.py:to_flows"]}
{"id": "C59", "title": "Tags are unique after 1.2 upgrade", "statement": "For every sequence of api declarations, the tags of the upgraded document contain each resource name exactly once, in first-seen order.", "quantifier": "all sequences of resources", "why_tests_cant": "fold over arbitrary sequences", "anchors": ["pyopenapi/migration/versions/v1_2/scanner/upgrade.py:Upgrade._api_declaration"]}
{"id": "C60", "title": "Loading documents with mutual external references terminates", "statement": "For every set of documents of one version (2.0 or 3.0.0) with finitely many urls and reference strings, and however cyclic their references (as long as a chain of nested path item references is finite or closes a cycle), opening a document with that version as target ends, nested resolutions are at most (urls x references) deep, and every referenced location is parsed at most once; except when a cached object answers null for a location below it (pointer prefixes such as Pet / Petx), where the same location is parsed over and over. (3.0.0: the references as rewritten are counted among the reference strings.)", "quantifier": "all finite document graphs, all preparations, all app urls", "why_tests_cant": "non-termination on cyclic graphs", "anchors": ["pyopenapi/migration/base.py:ApiBase.load_obj", "pyopenapi/migration/base.py:ApiBase.resolve_obj", "pyopenapi/migration/versions/v2_0/main.py:upgrade"]}
{"id": "C61", "title": "Documents are parsed by their declared version", "statement": "For every document, load_obj picks the parser by the declared version (1.2: ResourceListing, 2.0: Swagger, 3.0.0: OpenApi), ignores the given parser then, uses it only if no version is declared, rejects every other version, a missing parser and a document that is no dict; what is cached for the declared version is returned unchanged; loading a 2.0 or 3.0.0 document twice gives the same object, which is false of a 1.2 listing (cached under the url of its last API declaration).", "quantifier": "all documents, urls, parsers and application states", "why_tests_cant": "all version strings", "anchors": ["pyopenapi/migration/base.py:ApiBase.load_obj"]}
{"id": "C62", "title": "DictGetter hands out documents in the configured order", "statement": "For every list of urls and mapping, successive requests return the mapped documents in list order, an empty document for an unmapped url, and StopIteration afterwards.", "quantifier": "all url lists, mappings and request counts", "why_tests_cant": "history property", "anchors": ["pyopenapi/migration/getter.py:DictGetter", "pyopenapi/migration/getter.py:Getter.__next__"]}
{"id": "C63", "title": "Operation, info and license conversion keep all fields", "statement": "For every operation, info, license, contact, tag, xml and externalDocs object, every declared field which is not null is copied under the same name and nothing else is added, with these exceptions: parameters, responses, schemes, consumes and produces of an operation are converted; an empty security list of an operation and an empty description of externalDocs are dropped.", "quantifier": "all objects", "why_tests_cant": "all combinations of present/absent fields", "anchors": ["pyopenapi/migration/versions/v2_0/scanner/upgrade/converters.py:to_operation", "pyopenapi/migration/versions/v2_0/scanner/upgrade/converters.py:to_info", "pyopenapi/migration/versions/v2_0/scanner/upgrade/converters.py:to_tag", "pyopenapi/migration/versions/v2_0/scanner/upgrade/converters.py:to_xml", "pyopenapi/migration/versions/v2_0/scanner/upgrade/converters.py:to_external_docs"]}
{"id": "C64", "title": "Which local file is opened", "statement": "For every file system and path given to LocalGetter: a path with a .json/.yaml/.yml extension is opened itself, a directory gives the first existing of resource_list.json, swagger.json, swagger.yaml, swagger.yml, any other path gets .json, else .yaml, appended if that file exists, and otherwise ValueError is raised; except that a directory whose name itself has such an extension, or an extension that merely ends with json/yaml/yml, leads to a different file name.", "quantifier": "all paths and all file systems (sets of existing files)", "why_tests_cant": "the space of paths and file system contents is unbounded; tests use a handful of fixture directories", "anchors": ["pyopenapi/migration/getter.py:LocalGetter.__init__", "pyopenapi/migration/getter.py:LocalGetter.load", "pyopenapi/utils.py:patch_path"]}
{"id": "C65", "title": "Resolving a reference", "statement": "For every reference and application state: an empty reference is rejected without a change; an object cached for the wanted version at the pointer relocated to that version is the answer, and nothing is loaded or changed; a reference without a document part is taken in the application's own document; otherwise the newest object cached for an older version is migrated, from the location where it is; when nothing is cached for any version in between, a document is loaded and migrated only when the reference is given in the original version, otherwise the reference is reported as unresolvable.", "quantifier": "all references, parsers, version pairs and application states", "why_tests_cant": "depends on the whole history of the cache and on the relocation tables", "anchors": ["pyopenapi/migration/base.py:ApiBase.resolve_obj", "pyopenapi/migration/store.py:SpecObjStore.get"]}
{"id": "C66", "title": "1.2 listing information is carried over", "statement": "For every 1.2 application the info of the upgraded document has the API version of the listing, its title, description and terms of service if they are not empty, the contact as an e-mail address, a license if a license name or url is given, and nothing else.", "quantifier": "all resource listings", "why_tests_cant": "all combinations of optional parts", "anchors": ["pyopenapi/migration/versions/v1_2/scanner/upgrade.py:Upgrade._resource_listing"]}
{"id": "C67", "title": "1.2 parameter conversion", "statement": "For every 1.2 parameter: name, required and description are kept, 'form' becomes 'formData'; a body parameter gets the schema of its data type; any other one keeps type, format, default, bounds and enum, or becomes a csv array of its type if allowMultiple is true and it has no items; references to models outside of the body raise SchemaError; every well-formed parameter is converted.", "quantifier": "all parameter objects", "why_tests_cant": "all combinations of optional parts", "anchors": ["pyopenapi/migration/versions/v1_2/scanner/upgrade.py:convert_parameter", "pyopenapi/migration/versions/v1_2/scanner/upgrade.py:convert_items"]}
{"id": "C68", "title": "Well-formed 1.2 applications upgrade to loadable 2.0 documents", "statement": "For every well-formed 1.2 application with operations whose urls have a common prefix, the conversion and the loading of the resulting Swagger 2.0 document succeed. (Declarations without models and scopes without description, both legal, raise.)", "quantifier": "all 1.2 applications", "why_tests_cant": "no exception may come from any part of an arbitrarily large document", "anchors": ["pyopenapi/migration/versions/v1_2/scanner/upgrade.py:Upgrade", "pyopenapi/migration/versions/v2_0/main.py:upgrade"]}
{"id": "C69", "title": "Opening a document resolves every reference in it", "statement": "If opening (upgrading) a loaded document succeeds, every '$ref' carried by a path item, a schema (2.0) or a Reference anywhere in it, at any depth, has been resolved: the reference, made absolute against the url of its document, was requested with a parser for exactly what its place in the document may hold, and the answer was an object. (3.0 documents: also after conversion from 2.0; callbacks with colliding keys excluded.) A Reference that is itself the root of what was loaded is not resolved.", "quantifier": "all documents, all places in them, all behaviours of reference resolution, all urls", "why_tests_cant": "a missed slot shows only for documents which use a reference in exactly that place; documents nest without bound", "anchors": ["/repo/pyopenapi/migration/versions/v2_0/main.py:upgrade", "/repo/pyopenapi/migration/versions/v3_0_0/main.py:upgrade", "/repo/pyopenapi/migration/versions/v2_0/scanner/resolve.py:Resolve", "/repo/pyopenapi/migration/versions/v3_0_0/scanner/resolve.py:Resolve", "/repo/pyopenapi/migration/versions/v2_0/scanner/norm_ref.py:NormalizeRef", "/repo/pyopenapi/migration/versions/v3_0_0/scanner/norm_ref.py:NormalizeRef"]}
{"id": "C70", "title": "Opening a document at a target version returns its conversion", "statement": "If opening a document with a fresh application at a target version succeeds, the result is the root object made from the document (for a 1.2 listing: with the API declarations of exactly the listed resources, each once), converted step by step through the versions from the declared one up to the target, each step's result prepared and handed to the next, and the final object is what is stored for the target. Opening at the declared version changes nothing (in 3.0.0: nothing but the texts of '$ref'); opening 2.0 at 3.0.0 gives the OpenApi object made from the converted document, up to the texts of '$ref'; 1.2 at 2.0 or 3.0.0 gives the one or two conversions. References, other documents and loading order have no other influence on the result (opening at 3.0.0 assumes that no 3.0.0 object was already stored for the same document; its parts would be overrides).", "quantifier": "all documents, all sets of other documents and their failures, all versions and targets, all reference graphs", "why_tests_cant": "the conversion and the reference resolution interleave; independence of all other documents and of the loading order cannot be enumerated", "anchors": ["/repo/pyopenapi/migration/base.py:ApiBase.load_obj", "/repo/pyopenapi/migration/base.py:ApiBase.migrate_obj", "/repo/pyopenapi/migration/versions/v2_0/main.py:upgrade", "/repo/pyopenapi/migration/versions/v3_0_0/main.py:upgrade"]}
{"id": "C71", "title": "Which Swagger 2.0 documents migrate to OpenAPI 3.0", "statement": "Converting a loaded, well-formed Swagger 2.0 document to OpenAPI 3.0 either succeeds or raises SchemaError, never another error. It succeeds whenever no path begins with 'x-', every 'ssv'/'pipes' collection format belongs to a query array that is not moved into a body, each operation's parameters make one request body (at most one body parameter, or form parameters with different names, counted together with those of the path item when the path item has such parameters), and every OAuth2 scheme names a flow. The converted document can then be opened as an OpenAPI 3.0 object exactly if the document has no global security requirements and every OAuth2 flow whose name exists in OpenAPI 3.0 has at least one scope.", "quantifier": "every well-formed Swagger 2.0 document (any number of paths, operations, parameters, responses, schemas of any depth), every way references resolve, every location", "why_tests_cant": "a test suite converts a handful of documents; totality of the conversion and loadability of its result range over all combinations of parameters, bodies, responses, nested schemas and security schemes", "anchors": ["pyopenapi/migration/versions/v2_0/scanner/upgrade/converters.py: to_openapi, to_path_item, to_operation, from_parameter, to_request_body, to_response, to_security_scheme", "pyopenapi/migration/versions/v3_0_0/main.py: upgrade", "pyopenapi/migration/versions/v3_0_0/objects.py: OpenApi, OAuthFlow", "pyopenapi/migration/spec/obj.py: _Base.__init__"]}
{"id": "C72", "title": "References of a 3.0.0 object are rewritten to where their targets are", "statement": "If upgrading a loaded document at 3.0.0 succeeds (a 3.0.0 document, or a 2.0 document just converted), every '$ref' of a path item or a Reference anywhere in it, at any depth, has in the result, at the same place, become the reference to where its target is: a local reference ('#...') the new pointer, every other reference the new location. Nothing else of that object changes. The new location is the document of the reference with its pointer relocated from the version asked for to 3.0.0 by the routes known when the target is found; a pointer that is already one of 3.0.0 is kept.", "quantifier": "all documents, all places in them, all behaviours of reference resolution, all conversions", "why_tests_cant": "documents nest without bound, and the rewriting depends on the routes of every document loaded before", "anchors": ["/repo/pyopenapi/migration/versions/v3_0_0/scanner/resolve.py:_resolve", "/repo/pyopenapi/migration/base.py:ApiBase.resolve_obj", "/repo/pyopenapi/migration/store.py"]}
{"id": "C73", "title": "Every document that only refers to itself opens", "statement": "Opening a 2.0 document at 2.0, or a 3.0.0 document at 3.0.0, from any absolute url succeeds, and returns the object made from the document unchanged, provided every '$ref' in it is a local pointer to an object of the same document (path items have none); cycles of references and references to things that refer back are allowed, and no depth or length of chains of references makes it fail. What the getter answers for other urls does not matter. A self-contained 2.0 document also opens at 3.0.0 if it can be converted and every reference of the converted document, relocated as the conversion reports, points to an object; the result is the converted document, self-contained, with exactly these relocated references. (A 3.0.0 document with 'examples' in a media type does not open: the code reads them as one Example and walks them as a map.)", "quantifier": "all absolute urls, all documents with local references however nested or cyclic, all getters, all conversions", "why_tests_cant": "that no document of the class fails cannot be shown by opening some; references form arbitrary graphs", "anchors": ["/repo/pyopenapi/migration/base.py:ApiBase.load_obj", "/repo/pyopenapi/migration/base.py:ApiBase.migrate_obj", "/repo/pyopenapi/migration/base.py:ApiBase.resolve_obj", "/repo/pyopenapi/migration/versions/v2_0/main.py", "/repo/pyopenapi/migration/versions/v3_0_0/main.py", "/repo/pyopenapi/migration/versions/v3_0_0/scanner/resolve.py"]}
{"id": "C74", "title": "Every expressible self-contained 2.0 document opens at 3.0.0, with all references intact", "statement": "Opening a Swagger 2.0 document at 3.0.0 from any absolute url succeeds if the document is well-formed, can be expressed in 3.0 (one body at most per operation, no tsv or multi collection formats outside queries, no global security requirement, OAuth2 flows have scopes), and each of its '$ref's points to one of its own definitions or a subschema of one, to a global response or to a global parameter, provided the names of global body and form parameters are not prefixes of other parameters' names and need no escaping in a pointer. The result is the document the converter makes, and every '$ref' in it, also those copied from inlined parameters and responses, points to an object of the result: no reference is left at the place its target had in 2.0.", "quantifier": "all absolute urls, all such documents with arbitrarily nested schemas and cyclic references, all getters, all numbers of paths, operations, parameters and responses", "why_tests_cant": "the conversion copies and moves parts of the document; that none of the copies has a dangling reference must hold for every shape of document", "anchors": ["/repo/pyopenapi/migration/versions/v2_0/scanner/upgrade/converters.py:to_openapi", "/repo/pyopenapi/migration/versions/v3_0_0/main.py", "/repo/pyopenapi/migration/base.py:ApiBase.load_obj", "/repo/pyopenapi/migration/base.py:ApiBase.migrate_obj", "/repo/pyopenapi/migration/base.py:ApiBase.resolve_obj", "/repo/pyopenapi/migration/utils.py:jp_compose"]}
{"id": "C75", "title": "Well-formed Swagger 2.0 documents open at 3.0.0: conditions on the document alone", "statement": "Opening a Swagger 2.0 document at 3.0.0 from any absolute url succeeds if every value in the document has the type the specification gives it, the document is well-formed and expressible in 3.0 (see C74), each '$ref' points to one of its own definitions (or a subschema), responses or parameters, and the references of the schemas of body parameters end somewhere. Nothing is assumed about the objects built from the document, the attributes the scanners set on them, or about following references: what is noted on an object with '$ref' is the object of the document at that pointer, answered from the cache without loading anything; following a chain of schema references gives the schema at its end, whatever its length, and raises CycleDetectionError exactly if the chain has no end. The result is the converted document and each '$ref' in it points to an object of it.", "quantifier": "all absolute urls, all documents with these properties, chains of references of any length, all getters", "why_tests_cant": "the set of documents is infinite and the chains are unbounded; a test shows single documents", "anchors": ["/repo/pyopenapi/utils.py:deref", "/repo/pyopenapi/utils.py:CycleGuard", "/repo/pyopenapi/migration/versions/v2_0/scanner/resolve.py", "/repo/pyopenapi/migration/versions/v2_0/scanner/upgrade/converters.py:to_openapi", "/repo/pyopenapi/migration/versions/v3_0_0/main.py:upgrade", "/repo/pyopenapi/migration/base.py:ApiBase.resolve_obj"]}
{"id": "C76", "title": "Objects migrated one by one, and documents parts of which were migrated before", "statement": "Asking for a License, Info, Schema or PathItem object of a 2.0 document at 3.0.0 by its reference gives the 3.0.0 object of the same class at that pointer, with the converted content; any other kind of 2.0 object cannot be migrated by itself. If the document (or a License, Info, Schema) is migrated after objects inside it, these very objects are found at their new places in the result, and everything else is as in a migration without them; having migrated parts before does not make the migration fail. It is shown that path items are exceptions: they lose the document's produces/consumes, take the address of the document for their servers, and drop objects migrated before; and that a definition that is only a reference becomes an empty schema.", "quantifier": "all such objects of any size, all urls and pointers, all sets of separate places of objects migrated before", "why_tests_cant": "the places at which objects can have been migrated before are arbitrary subsets of the places of an arbitrary document", "anchors": ["/repo/pyopenapi/migration/versions/v3_0_0/main.py:upgrade", "/repo/pyopenapi/migration/spec/obj.py:_Base.__init__", "/repo/pyopenapi/migration/store.py:get_under", "/repo/pyopenapi/migration/versions/v2_0/scanner/upgrade/converters.py:to_path_item"]}
{"id": "C77", "title": "The fixed fields of the specifications are read back", "statement": "Take any document (or part of one) that follows the Swagger 1.2, Swagger 2.0 or OpenAPI 3.0.0 specification: fixed fields hold what the specification says, required ones are present, further fields such as x-... are allowed in objects. Then the library builds an object of the class of that part, and, at every depth, reading a fixed field of the specification from an object gives exactly what the document has there: the value itself for plain fields, an object, list or map of objects (same keys, same order) for structured ones, a Reference showing the reference text where one stands, null for null, and the documented default (csv for collectionFormat, [] for required of a 2.0 schema, else null) when the field is absent. Fields of 3.0.0 objects can also be read by their snake_case names. The exceptions are exactly listed and each one is refuted by a document: security of a 2.0 document, deprecated of a 3.0 schema, style of an encoding, examples of a media type, non-string parameters of a link, x-... entries next to paths, and the names client_credentials and open_id_connect_url.", "quantifier": "all documents of every kind of object of the three specifications, of any size and depth, with any additional fields", "why_tests_cant": "sample documents touch a few fields at a few depths; a field missing from a class, misspelt or of the wrong type shows only in documents that use it there", "anchors": ["pyopenapi/migration/versions/v1_2/objects.py", "pyopenapi/migration/versions/v2_0/objects.py", "pyopenapi/migration/versions/v3_0_0/objects.py", "pyopenapi/migration/spec/obj.py:field", "pyopenapi/migration/spec/obj.py:child", "pyopenapi/migration/spec/obj.py:rename"]}
{"id": "C78", "title": "A closed set of 2.0 documents opens with every reference answered", "statement": "Take a Swagger 2.0 document and everything reached from it by references of schemas, parameters, responses and path items, in any number of other documents, in chains and cycles of any length. If every reference denotes an existing object of the kind expected there, and no pointer into another document is a mere string prefix of another one (as Pet is of Petx), then opening the document at 2.0 succeeds and returns the document as it was built; only the document and the places referred to are in the cache; and every reference of every object there is answered from the cache, without loading anything more, by an object made from exactly the value the reference denotes. Without the prefix condition a reference to Petx is answered with Pet; with a dangling reference opening fails.", "quantifier": "all sets of documents, numbers of references, chains and cycles, and all later questions", "why_tests_cant": "tests try a few fixed layouts; success for every reference graph, including every cycle, needs an induction over what remains to be loaded", "anchors": ["pyopenapi/migration/base.py:load_obj", "pyopenapi/migration/base.py:resolve_obj", "pyopenapi/migration/base.py:prepare_obj", "pyopenapi/migration/versions/v2_0/main.py:up", "pyopenapi/migration/versions/v2_0/scanner/resolve.py:Resolver", "pyopenapi/migration/versions/comm.py:_merge_path_item", "pyopenapi/migration/store.py:SpecObjStore.get"]}
{"id": "C79", "title": "A closed set of 3.0.0 documents opens with every reference answered", "statement": "Take an OpenAPI 3.0.0 document and everything reached from it by references (schemas, parameters, responses, headers, examples, request bodies, links, security schemes, callbacks, path items), in any number of other documents, to parts of them or to whole documents, in chains and cycles of any length. If every reference denotes an existing object of the kind expected there, and no pointer into another document is a mere string prefix of another one, then opening the document at 3.0.0 succeeds and returns the document as it was built but for its references: each pointer into the document itself stays such a pointer and every other reference has become absolute, still denoting the same place. Only the document and the places referred to are in the cache, each as built but for the same rewriting; and every reference of every object there is answered from the cache, without loading or changing anything, by an object made from exactly the value the reference denotes. Without the prefix condition a reference to Petx is answered with Pet; with a dangling reference opening fails.", "quantifier": "all sets of documents, numbers of references, chains and cycles, and all later questions", "why_tests_cant": "tests try a few fixed layouts; success for every reference graph, including every cycle, needs an induction over what remains to be loaded, and the rewriting of references happens while other documents are being read", "anchors": ["pyopenapi/migration/base.py:load_obj", "pyopenapi/migration/base.py:resolve_obj", "pyopenapi/migration/versions/v3_0_0/main.py:up", "pyopenapi/migration/versions/v3_0_0/scanner/resolve.py:Resolver", "pyopenapi/migration/versions/comm.py:_merge_path_item", "pyopenapi/migration/store.py:SpecObjStore.get"]}
{"id": "C80", "title": "Classes are what the history of their declarations says", "statement": "For every sequence of class declarations (with a base class) and later attach_field calls that runs without error: the fields, children and internals a class lists are exactly what was attached to it or declared by it, else what its base listed at the moment the class was declared; and reading an attribute of an object finds the property of the nearest class towards the root that has it, where inside one class a child hides an internal and an internal hides a field, inherited ones included. The object classes of 1.2, 2.0 and 3.0.0 that all other properties are about are exactly what their modules declare in this sense. A child attached to a base after a subclass was declared is readable on the subclass but not listed among its children (Header.content in 3.0.0); a field a subclass declares is hidden by a child of the same name of its base.", "quantifier": "all histories of declarations and attachments, all classes and attribute names", "why_tests_cant": "tests read some attributes of some fixed classes; inheritance and late attachment interact over arbitrary histories and chains of bases", "anchors": ["pyopenapi/migration/spec/obj.py:FieldMeta", "pyopenapi/migration/spec/obj.py:attach_field", "pyopenapi/migration/versions/v1_2/objects.py", "pyopenapi/migration/versions/v2_0/objects.py", "pyopenapi/migration/versions/v3_0_0/objects.py"]}
{"id": "C81", "title": "Attributes attached to an object are its own and hold what was written last", "statement": "For every sequence of get_attrs calls and of reads and writes of the groups they answer with: an object has at most one group under a namespace, every later call answers with that one whatever class it names, and no other object or namespace gets it; a call without a class answers None, and makes nothing, exactly as long as no call has named a class; an attribute holds the value written last to it (or to another attribute declared with the same key), before that its default, or an error if it is required; a name the class of the group does not declare is an AttributeError until it is written. So reading the noted reference of an object ('ref_obj', 'normalized_ref') never fails. 'final' of a path item with a reference is the merged object noted last; if none was noted it is the path item itself in 3.0.0, but an AttributeError in 2.0, whose group does not declare 'final_obj'.", "quantifier": "all sequences of operations on all objects, namespaces and groups; all tables of group classes with bases, keys, defaults and required attributes", "why_tests_cant": "the answer depends on the whole history of calls on all objects; a test can try only a few interleavings", "anchors": ["pyopenapi/migration/spec/attr.py:attr", "pyopenapi/migration/spec/attr.py:AttributeMeta", "pyopenapi/migration/spec/obj.py:Base2Obj.get_attrs", "pyopenapi/utils.py:final", "pyopenapi/migration/versions/v2_0/attrs.py", "pyopenapi/migration/versions/v3_0_0/attrs.py"]}
{"id": "C82", "title": "Every object of a loaded document has the object that holds it as its parent", "statement": "Building a document, with or without overriding objects, makes new objects that hold exactly the tree of values the document describes, shares nothing with other objects but the overriding ones, and changes nothing but parents in objects that were there before. Without overrides, get_parent() of the object at a path is the object at the path without its last name, and following parents leads back to the root, whose parent is None; the one exception is an empty list or map that is a child of an object, whose parent is None. An overriding object gets one of its new holders as parent while its old holder goes on holding it; all other parents stay. attach_child makes the holder the parent; assignment and merge_children change no parent, so the operations of a merged path item still name the path item they were written in.", "quantifier": "all class tables, all documents and builders, all heaps of objects and overrides, all paths in the document", "why_tests_cant": "documents are of any depth and shape, and sharing depends on the whole heap; a test looks at a few objects", "anchors": ["pyopenapi/migration/spec/obj.py:_Base.get_parent", "pyopenapi/migration/spec/obj.py:_Base.set_parent", "pyopenapi/migration/spec/obj.py:_List.__init__", "pyopenapi/migration/spec/obj.py:_Map.__init__", "pyopenapi/migration/spec/obj.py:Base2Obj.__init__", "pyopenapi/migration/spec/obj.py:Base2Obj.attach_child", "pyopenapi/migration/spec/obj.py:Base2Obj.merge_children"]}
{"id": "C83", "title": "A closed Swagger 1.2 application opens at 2.0", "statement": "Opening (App.load, then asking for version 2.0) a Swagger 1.2 resource listing whose listed API declarations can all be fetched from beside it succeeds whenever the documents have the JSON types 1.2 declares, the application can be converted, no keys repeat, every type that is used is primitive or defined with a name that needs no pointer escaping, and the urls of the operations share a non-empty prefix. The result is exactly the object built by the 1.2-to-2.0 conversion, and every reference in it points to an object of the right kind inside it. A type that is used but not defined, or a resource path with an inner slash, makes opening fail although the conversion itself succeeds.", "quantifier": "all urls, all fetch functions, all listings and sets of API declarations satisfying the conditions, all recursion budgets", "why_tests_cant": "Success of load, conversion and reference resolution together has to be shown for every application; fixtures only cover a handful of documents.", "anchors": ["pyopenapi/migration/base.py: ApiBase.load_obj, migrate_obj, resolve_obj", "pyopenapi/migration/versions/v1_2/main.py", "pyopenapi/migration/versions/v1_2/scanner/upgrade.py", "pyopenapi/migration/versions/v2_0/main.py"]}
{"id": "C84", "title": "A closed Swagger 1.2 application opens at 3.0.0", "statement": "Under the conditions of C83, if in addition \"$ref\" is used as a key for references only, OpenAPI 3.0 can express the requests and the authorizations (one body or distinctly named form fields, files only in forms, oauth2 with an endpoint), and no path looks like an extension, opening the application at 3.0.0 succeeds. The result is, up to rewritten reference texts, the object built by converting the 2.0 object of C83 to OpenAPI 3.0, and every reference in it points to an object of the right kind inside it.", "quantifier": "all urls, all fetch functions, all listings and sets of API declarations satisfying the conditions, all recursion budgets", "why_tests_cant": "Two conversions, reference resolution and reference rewriting have to compose for every application; tests run a few sample applications.", "anchors": ["pyopenapi/migration/base.py: ApiBase.load_obj, migrate_obj, resolve_obj", "pyopenapi/migration/versions/v1_2/scanner/upgrade.py", "pyopenapi/migration/versions/v2_0/scanner/upgrade/converters.py", "pyopenapi/migration/versions/v3_0_0/main.py"]}
{"id": "C85", "title": "A closed set of 2.0 documents opens at 3.0.0 with every reference answered", "statement": "Take a Swagger 2.0 document and everything reached from it by references, in any number of other documents, in chains and cycles of any length. Suppose every reference denotes an existing object of the kind expected there, the document and each place of another document that the conversions refer to can be converted to OpenAPI 3.0 (a path item may be a reference to a path item, of any document, that the conversion leaves in its place), and a place converted on its own is neither above nor below another place referred to (nor a string prefix of one). Then opening the document at 3.0.0 succeeds and returns its conversion but for the references: each refers to where the conversion has moved what the 2.0 reference denoted, as a pointer into the document or absolute. At 3.0.0 only conversions are stored, of the document and of places referred to, with references rewritten likewise; and every reference of every one of them, asked for by its new place at 3.0.0 or by its old place at 2.0, is answered from the cache, without loading or changing anything, by the conversion of what the 2.0 reference denoted. A response in another document makes opening at 3.0.0 fail although the set opens at 2.0.", "quantifier": "all sets of documents, numbers of references, chains and cycles, conversions, and all later questions", "why_tests_cant": "tests convert a few fixed layouts; success for every reference graph needs an induction over what remains to be converted, while documents are loaded, converted, relocated and rewritten in the middle of each other", "anchors": ["pyopenapi/migration/base.py:resolve_obj", "pyopenapi/migration/base.py:migrate_obj", "pyopenapi/migration/versions/v3_0_0/main.py:up", "pyopenapi/migration/versions/v3_0_0/scanner/resolve.py:Resolver", "pyopenapi/migration/store.py:SpecObjStore.relocate", "pyopenapi/migration/store.py:SpecObjStore.get_under", "pyopenapi/migration/versions/v3_0_0/scanner/merge.py:Merge", "pyopenapi/migration/versions/comm.py:_merge_path_item"]}
{"id": "C86", "title": "A 2.0 document that shares schemas and path items with other documents opens at 3.0.0", "statement": "Take a well-formed Swagger 2.0 document that OpenAPI 3.0 can express (no global security requirement, OAuth2 flows with scopes, names of global body parameters not in conflict), whose references point to its own definitions (or parts of them), global parameters and global responses, and to schemas and path items of other documents, which may refer to further ones and (for schemas) back, in chains and cycles of any length. Suppose the schemas are well-formed, the path items are well-formed, can be expressed, and contain their parameters and responses, no pointer to a used piece of another document is the beginning of the pointer to a different one, and \"$ref\" is used as a key for references only. Then opening it at 3.0.0 succeeds. At 3.0.0 the cache contains nothing but the conversion of the document and, at the places used, objects loaded from the OpenAPI 3.0 forms of those schemas and path items, apart from their references; each reference of each of them, by its new place at 3.0.0 or its old place at 2.0, is answered from the cache, without loading or changing anything, by the conversion of what the 2.0 reference denoted.", "quantifier": "all documents and schema libraries of this kind, any numbers of references, chains and cycles, all later questions", "why_tests_cant": "tests use one fixed library; that conversion cannot fail, that every moved reference denotes an object and that every schema is converted exactly needs induction over documents and reference graphs together", "anchors": ["pyopenapi/migration/base.py:resolve_obj", "pyopenapi/migration/base.py:migrate_obj", "pyopenapi/migration/versions/v3_0_0/main.py:up", "pyopenapi/migration/versions/v2_0/scanner/upgrade/converters.py:to_schema", "pyopenapi/migration/versions/v2_0/scanner/upgrade/converters.py:to_openapi", "pyopenapi/migration/store.py:SpecObjStore.relocate", "pyopenapi/migration/versions/v2_0/scanner/upgrade/converters.py:to_path_item"]}
{"id": "C87", "title": "What a 2.0 document uses of other documents is taken from the scanned references", "statement": "Take Swagger 2.0 documents as in C86, using schemas of other documents, in which the schema of a body parameter may also be given by a chain of references, of any length, through other documents and back, that ends at a schema which is no reference and no file. When the document has been opened at 2.0, each reference of each object in the cache stands for what asking for its absolute reference at 2.0 answers, from the cache and without loading or changing anything. When every schema reference into the document itself leads to, or into, one of its definitions, following the references from any schema in the cache gives the schema at the end of the chain of its references in the documents, and reports a reference cycle exactly when that chain has no end. With the references standing for that in the conversion (and nothing else assumed about them), opening the document at 3.0.0 succeeds, with the same result as in C86: the cache holds the conversions of the document and of the schemas used, and every reference, by its new or its old place, is answered by the conversion of what it denoted. The same holds when path items of other documents are used too, if those path items write out their parameters, responses and the schemas of bodies, and each place of another document is used as one kind of object: the reference noted for each path item is the absolute one.", "quantifier": "all documents and schema libraries of this kind, any chains of references within and across documents, all later questions", "why_tests_cant": "tests follow one or two fixed references; that each chain across documents is followed to its end within the cache, and never ends early or in a cycle error, needs induction over reference graphs", "anchors": ["pyopenapi/utils.py:deref", "pyopenapi/utils.py:CycleGuard", "pyopenapi/migration/versions/v2_0/scanner/resolve.py:Resolve", "pyopenapi/migration/base.py:resolve_obj", "pyopenapi/migration/store.py:SpecObjStore.get", "pyopenapi/migration/versions/v2_0/scanner/upgrade/converters.py:to_openapi"]}
