# Formal model of mission-liao/pyopenapi in Coq 8.16.1 (standard library only)

## 1. How the development is organised

All Coq sources are in `rocq/theories/`, logical name `Verif`.

* *model files* (`PyStr.v`, `PyVal.v`, `UrlLib.v`, `Utils.v`, `Obj.v`, `Classes*.v`, `Store.v`, `Resolver.v`,
  `Scan.v`, `Conv*.v`, `Up12*.v`, `App.v` …) contain executable Gallina only, no proofs.  Every definition cites
  the file and lines of `/repo` it models, and says where it simplifies.
* *specification files* (`Spec*.v`) contain the independent vocabulary used by theorem statements (RFC 6901
  decoding, pointer evaluation on raw JSON, dict-order-insensitive equality, JSON-schema validation …).  They do not
  mention the model's helpers.
* *fact files* (`*Facts.v`) contain the lemmas.
* *property files* (`Properties*.v`) contain only the property theorems, each closed by `exact lemma`, followed by
  `Print Assumptions`, together with `Example`s showing that a concrete non-trivial case meets the hypotheses.

## 2. Modelling conventions

* Python `str` -> Coq `string` (the UTF-8 bytes; every literal the code searches for is ASCII, for which byte-wise and
  code-point-wise `split`, `replace`, `startswith`, `find` agree).
* JSON values -> inductive `json`; dicts are association lists in insertion order.  Quantifying over all lists
  quantifies over all orders (so an order-dependence of the code is visible).
* Exceptions -> `res A := Ok a | Err e`, `e` an enumeration of the exception classes that occur.
* Loops -> structural recursion / folds; unbounded loops -> fuel whose exhaustion is an error value, excluded or shown
  impossible by the theorem.
* Mutation -> state passing.  Object identity is modelled only where it matters (deref graph: `nat` ids; shared request
  body; children caches).

## 3. Per property: what is modelled and how it is proved

| id | model | proof |
|----|-------|-------|
| C01-C03 | `jp_compose`, `jp_split` (utils.py) | induction on tokens/characters; spec = one-pass RFC 6901 automaton |
| C04,C05 | `scope_compose`, `scope_split`, `ScopeDict.__getitem__` | list induction; permutation invariance |
| C06 | `deref`/`CycleGuard` over a finite heap of ids | measure = ids not yet visited; chain spec is an inductive relation |
| C07-C12 | url helpers over a model of CPython `urlparse`/`urlunparse` | string induction; parse/unparse round trip |
| C13 | `get_swagger_version` | case analysis on lookups |
| C14 | `compare_container`, with and without the include/exclude filters | induction on JSON, sorting lemmas; relation `alike` (equal up to the entries not looked at) preserved by the recursion |
| C15 | `field`, `rename`, `FieldMeta` access | write histories over association lists |
| C16-C19, C25 | generic class tables + `build`, `dump`, `resolve` | nested induction on JSON/builders |
| C20-C24 | object tree operations | nested induction on objects; history induction for the cache |
| C26-C28 | `default_tree_traversal`, `scan` | stack invariant (permutation of pre-order) |
| C29-C34 | `SpecObjStore` | list induction, permutation invariance, composition |
| C35 | `Resolver` | invariant over call histories |
| C36-C46, C49, C50, C63 | converters 2.0 -> 3.0 | nested induction on schemas; fold invariants on parameters |
| C47, C48 | relocation table of `to_openapi` + `_patch_jp` + pointer evaluation | composition of C33 and C46 |
| C51, C60, C61, C65 | `migrate_obj`, `load_obj`, `resolve_obj` (App.v) and the main modules with their scanners as request programs (Main.v) | fold over version list; measure: locations not yet parsed, each parse adds one, for loading |
| C64 | `LocalGetter.__init__/load`, `patch_path` over an abstract file system (Getter.v) | case analysis, refutations for the odd names |
| C52, C53 | v2.0/3.0 scanners | chain induction; key-map lemmas |
| C54-C59, C66-C68 | 1.2 upgrade: the whole of scanner/upgrade.py with the traversal (Up12.v), images in SpecUp12.v | fold invariants over operations and models; totality and loadability part by part |
| C62 | getter | list induction |
| C69 | main modules + `NormalizeRef`/`Resolve` scanners as request programs (Main.v) | trace of answered requests; every reference slot of the class tables is covered by a scanner target (checked by computation), induction over the object tree |
| C70 | `load_obj` + `migrate_obj` + modules with the real conversions (Whole.v) | what a request program can return does not depend on the answers; composition with C51 |
| C71 | `to_openapi` and everything below it on well-formed documents (SpecMigrate.v); loading the result with the 3.0 class tables | outcome of each converter as "Ok, or SchemaError and not expressible", part by part; every result has the shape of its 3.0 class, induction over schemas |
| C72 | `rewrite_refs` in `finish30` (Main.v), `resolve_obj` (App.v) | every scheduled rewriting is addressed by the place of its object; a walk to a place commutes with the rewriting of all others |
| C73 | the whole of `open_document` (App.v, Main.v) on a fresh app | every normalised reference is quiet (answered from the store, without changing it) by C20/C38-style facts about pointers; the scanners then succeed and rewrite every reference to itself or to its relocation |
| C74 | C71 and C73 put together: `open_document` with the real 2.0 to 3.0 conversion | every "$ref" in the output of each converter is one of the input document, or of a parameter or response it refers to (the shape relation of C71 with a predicate on references, TightFacts.v); each of the allowed targets moves to where the converter put it (C48, C51) |
| C75 | C74 with `deref`, `normalized_ref` and what `Resolve` notes modelled for documents that refer to themselves (Follow.v) | the JSON conditions of SpecFollow.v give the object conditions of C74: a typed value builds typed objects (induction over the JSON value), a pointer to a target addresses an object (C19), a finite chain of references is followed by the loop within its bound (pigeonhole on the labels of the objects of the document) |
| C76 | the conversion step of `upgrade` for 3.0.0 on License, Info, Schema, PathItem and Swagger, with overrides (Up30.v, Whole.v) | the image theorems of C37, C39-C44, C63 with the shape theorems of C71; C24 for the overrides |
| C77 | the three class tables against tables of fixed fields transcribed from the specifications (SpecFields.v), construction and attribute access of obj.py | a boolean agreement of the tables, evaluated by the kernel; then induction over the document |
| C78 | load_obj, resolve_obj, the 2.0 upgrade with its resolver and path-item merging, and the store, on a set of documents described by SpecClosed.v (what is referred to, as what, and where it is) | invariant of the cache with a set of pending places; induction on the number of places not loaded yet |
| C79 | load_obj, resolve_obj, the 3.0.0 upgrade with its resolver, the rewriting of references and path-item merging, and the store, on a set of documents described by SpecClosed30.v | as C78, with the invariant that every stored object is the object that was built with some references made absolute; rewriting keeps what every reference denotes |
| C80 | FieldMeta.__new__, attach_field, the property factories with their keyword arguments; the statements of the three objects.py (Declarations.v, transcribed by script) | invariant by induction on the history relating the forward run to a specification that reads the history backwards; the class tables by reflection |
| C81 | attr, AttributeMeta, AttributeGroup, get_attrs, final; the group classes of v2_0/attrs.py and v3_0_0/attrs.py | invariant over the history of asks, reads and writes, by induction on its end; the specification finds the last write in the history itself |
| C82 | the constructors, set_parent, setattr, attach_child, merge_children on a heap of objects with identity (Heap.v) | refinement: by induction over the document the heap construction reads back as the tree of Obj.v, with a ghost log of set_parent calls; regions of new cells are intervals, so sharing is excluded by arithmetic |
| C83, C84 | 1.2 applications from load to 2.0 and to 3.0.0: App.v, Main.v, Whole.v, Follow.v, Up12.v together; conditions on the JSON documents in SpecOpen12.v | typing and reference closure of the converted document part by part (Up12Facts13-16), then the resolution rounds of C76/C77 on it, with the two extra stored rows of the 1.2 round (Open12Facts, Open12Facts2); boolean checkers for the example in Check12.v |
| C85 | load_obj, resolve_obj, migrate_obj through 2.0 and 3.0.0, the store with its routes, and the 3.0.0 upgrade with its resolver and rewriting, on a set of 2.0 documents described by SpecClosed.v and SpecClosed23.v (the conversion itself is a parameter: what is needed of it is `converts`) | the 2.0 round of C78 with the invariant relaxed to keep what is stored at 3.0.0 (ClosedFacts); then an invariant of the 3.0.0 entries and routes with a set of places whose references are still being resolved; induction on the number of places not converted yet (ClosedFacts23); the merging of path items follows them from place to place, each answered by what the invariant says is stored there, until one is met again or has no reference |
| C86 | C85 with the real conversion (Conv20.v, Up30.v, Whole.v) of the document and of the schemas (`C86_opens`) and path items (`C86_opens_with_path_items`) of other documents it uses (SpecLibrary.v); `deref` and `normalized_ref`, which read what scanners noted on the 2.0 objects, stay parameters as in C74 | `converts` follows from the JSON-level conditions: the image of each conversion is tight, so every Reference in it carries a "$ref" of the source, which leads to a target that has been moved or a used schema, and every path item that is a reference carries what the scanners noted for it (`items_normalized`, which C87_items_normalized shows of the modelled `NormalizeRef`; ItemFacts, LibraryFacts); then C85 |
| C87 | C86 with `deref`, `normalized_ref` and what `Resolve` notes modelled for sets of documents (FollowAll.v): a reference is looked up in the store as it is after the 2.0 round; conditions on the documents in SpecFollowAll.v | the invariant of C78 gives for each reference of a stored object the stored object it stands for; a chain of references in the documents is a chain in the store, followed within the bound of the loop (pigeonhole on url, pointer and text of the stored objects, FollowAllFacts); a chain that does not end comes back to a label already seen, so the loop reports it (C87_deref); so the document is migratable in the sense of C74 and C86 applies; `C87_opens_with_path_items` does the same for path items of other documents, which write out their parameters, responses and schemas of bodies (`well_formed_items`, `written_library`; WrittenFacts; example in PropertiesFollowItems) |

Where the code violates the natural property the statement in `properties.jsonl` is the exact characterisation, and a
theorem with suffix `_refuted` exhibits the witness.

## 4. Trusted base

* Coq 8.16.1: its kernel (including `vm_compute`, used for closed examples and for checks of the class tables), the
  parser/pretty printer through which the statements are read, and `coqc`.
* Axioms: none.  `Print Assumptions` prints `Closed under the global context` for **every** property theorem (each
  property file ends with `Print Assumptions` commands for representative theorems; the whole list was checked with a script over the
  names in MANIFEST.json).  The standard library files that are loaded (QArith, Sorting, ...) bring in no axiom that a
  theorem depends on.  `coqchk` lists no axiom of ours.
* That the Gallina definitions say what the Python code does.  Every definition cites the lines it models.
  The conventions of section 2 and the list of simplifications below are part of this trust.
* No section variables, hypotheses, functors or module types are visible in a property theorem: everything a theorem
  depends on is universally quantified in its statement.

## 5. What is modelled, what is not

Modelled (file of the model -> file of the code):

| model | code |
|-------|------|
| PyStr, PyVal | Python's `str` methods, truth values, dict access, exceptions as far as used |
| Jp, Scope, Deref, Urls, UrlLib, CompareContainer | utils.py (`jp_*`, `scope_*`, `ScopeDict`, `deref`, `CycleGuard`, url helpers, `normalize_jr`, `jr_split`, `get_swagger_version`, `compare_container`, `get_supported_versions` (App.v)), and CPython's `urllib.parse` functions they call |
| Obj, ObjCompare, ObjState, Cache | migration/spec/obj.py: class declarations, construction, attribute access, dump, resolve, merge, compare, children cache |
| Classes_v1_2, Classes_v2_0, Classes_v3_0_0 | the class declarations of versions/*/objects.py as data |
| Declare, Declarations | spec/obj.py: `FieldMeta`, `attach_field`; the statements of versions/*/objects.py (C80 derives the tables of Classes_* from them) |
| Attrs | spec/attr.py; spec/obj.py: `get_attrs`; versions/v2_0/attrs.py, versions/v3_0_0/attrs.py; utils.py: `final` |
| Heap | spec/obj.py: construction with object identity, parents, `attach_child`, `merge_children` (C82 proves that Obj.v's trees are what the heap holds) |
| Scan | scan.py: `scan`, `Dispatcher`, `default_tree_traversal` |
| Store | migration/store.py |
| Getter | getter.py, resolve.py: `LocalGetter`, `UrlGetter` (without the network), `Resolver`, `patch_path` |
| App | migration/base.py: `load_obj`, `migrate_obj`, `resolve_obj` |
| Main, MergePath, YamlFix | versions/v2_0/main.py, versions/v3_0_0/main.py, versions/comm.py, their scanners |
| Conv20, Up30 | versions/v2_0/scanner/upgrade/converters.py and upgrade.py (2.0 -> 3.0.0) |
| Whole | the conversions plugged into the modules |
| Follow, FollowAll | versions/v2_0/scanner/resolve.py: what `Resolve` notes, utils.py: `deref`, `CycleGuard` (within one document; across documents) |
| Up12 | versions/v1_2/scanner/upgrade.py (1.2 -> 2.0) |

Not modelled: logging, the file system and the network (getters take their answers as parameters), the json and yaml parsers,
`import_string` and module discovery (their results are parameters), the test helpers, and Python object identity outside of
Heap/Deref/Cache/ObjState.

Simplifications (each is also stated at the definition):

* urllib: CPython 3.6; the check of IPv6 brackets, the NFKC check and the removal of control characters are left out.
* `sorted` is a stable insertion sort; a comparison between unlike types raises, but which comparison is made first may
  differ from timsort.
* Obj: identity and parents (but see Heap), `attrs` (but see Attrs), overrides of lazily built children, Python method names as attribute names, child defaults and the
  distinct Python type of each `list_`/`map_` call are left out.
* Compare: which differing key is named (dict order) is unspecified.
* Cache: containers that contain themselves, and callers who change the returned dict, are out of scope.
* Scan: objects are not changed during a traversal.
* App: `prepare_obj` has no effect on the app; fetched documents do not change during a run; the store key `None` is "";
  attributes `normalized_ref`, `ref_obj`, `final_obj` are not represented (Main: a reference may be asked for again; the
  guard of `_merge_path_item` compares locations instead of identities).  The 3.0 rewriting of `obj.ref` is addressed by the
  place of the object and seen by everything that later reads the stored object; that the spec of a child is shared with
  the raw fetched document is ignored.
* YamlFix: keys are str/int/bool/null.
* Up12: non-string ids raise TypeError, `lower` is ASCII, floats are exact fractions, objects are copied, not aliased.
* Up30: theorems about the converter concern loaded objects before `Merge`; the overrides handed
  to the conversion are modelled (Main.v), theorems about the converted document assume none.
* Follow: identity of objects in `CycleGuard` is replaced by (pointer, text of the reference); within one document different
  objects have different pointers (C20).  FollowAll: by (url, pointer, text of the reference).  A reference is looked up in the
  store as it is when the references of all documents have been loaded, not when its own document was scanned; C87_noted shows
  that this is what `resolve_obj` answers from then on.
* C69, C72, C73, C74, C75: objects built without overrides. C73, C74, C75: references are fragments only (`#/...`), the url is a clean absolute one.

## 6. Behaviour found that a user may not expect

The theorems named `_refuted` show the important ones.  All were found while modelling, none is repaired here.

*Objects migrated one by one.*  A path item asked for by itself at 3.0.0 loses the document's `produces`/`consumes` and its servers
are at the address of the document (C76_path_item_media_refuted, C76_path_item_server_refuted); parts of it migrated before are
dropped (C76_path_item_reuse_refuted); a definition that is only a `$ref` becomes an empty Schema object (C76_alias_refuted).

*References and loading.*  A store entry `#/definitions/Pet` is a string prefix of `#/definitions/Petx/title`: it answers null and
the location is parsed again without end (C60_null_refuted).  `resolve` ignores further pointer pieces behind a scalar field.
A Reference standing alone as a document is not resolved (C69_root_reference_refuted), and migrating it to 3.0 raises.
The 1.2 listing is cached under the url of its last API declaration (loop variable `url`, base.py:157; C61_listing_refuted).
A fragment without declared version never finds its own cached object.  `resolve_obj` of a float raises TypeError.  The error message of the
`Resolve` scanners reads `obj.normalized_ref` and so raises AttributeError.  Loading an external root document of another
version overwrites `original_spec_version`.  The removal of dummies is lost when parsing then raises.

*Urls.*  `normalize_jr` with a document directly below the root gives `http://test.com//User.json`, or
`file://User.json/`; a trailing empty `#` is dropped; `derelativise_url` drops the first character of relative paths and treats `...` like `..`.

*Objects.*  v3 `Header.content` is not built nor dumped; v3 `OAuthFlows.client_credentials` looks for the key `clientCredential`;
`Encoding.stype`, `Schema.depreated`; v2 `__renamed__` dicts are ignored; a spec that is a string or list is accepted in places;
callback keys collide (C26_mixed_refuted); inner keys of nested containers are escaped twice in traversal paths (C27_nested_refuted);
`compare` looks only at the first element of string lists, ignores the tail of a raw list or raises IndexError; `compare_container` raises ValueError for a list of mixed types;
`merge_children` that raises midway leaves a partial assignment with a stale cache; overrides below keys with `/` are ignored.
v3 `Link.parameters` must be strings; `x-...` entries beside paths are taken for path items; `openIdConnectUrl` has no snake_case name (C77).
v3 `MediaType.examples` is built as one Example, so the v3 `Resolve` scanner raises AttributeError for it.

An empty list or map that is a child has no parent; the operations of a merged path item have the path item they were written in as parent (C82_merge_refuted).
2.0 `final` of a path item that was not merged raises AttributeError (C81_final).

*Store.*  Lookups are by string prefix without boundary (Pet/PetOwner), so the insertion order decides; keys of `get_under` collide; `update_routes` creates
the url entry even when it raises; relocation confuses `body_1` with `body_10` and `parameters/1` with `parameters/10`.

*Yaml.*  `YamlFixer` runs after `NormalizeRef`, which already raises AttributeError for integer response codes (C53_too_late_refuted); integer keys of the top-level
responses are never fixed.  *Getter.*  A directory with `.yaml` in its name breaks `swagger.json`; `.geojson` opens `.geojson.json`; `.yml` is never appended;
`int(head)` accepts negative, signed and padded indices.

*2.0 -> 3.0.*  A reference to a response of another document cannot be converted: opening at 3.0.0 fails (C85_response_refuted).  A valid global `security` cannot be loaded (it is declared as a list of lists of strings); a file response loses its schema;
a body followed by a required form parameter appends to the source schema's `required`; flow names are not translated (`accessCode`, `application`); query arrays without collectionFormat get no style
(3.0 default: exploded); ssv/pipes in form data raise SchemaError; `collectionFormat` of nested items is lost; form
parameters merged beside a `$ref` body; operation `security: []` is dropped; `default: null` is dropped; a server made from host only has no scheme (operation servers `https:///host`); indices of kept
path-level parameters shift without relocation; operation-level parameters are not relocated; body parameters with names needing escapes are relocated
to components/parameters; oauth2 schemes with empty scopes make migration raise; `_merge_path_item` loses summary, description and `$ref`.

*1.2 -> 2.0.*  Missing `models`, `parameters`, `operations`, `info`, `resourcePath` raise (AttributeError, TypeError or Exception); no operation at all raises IndexError; hosts `a.com`/`a.org` give host `a.`
with paths `com/x`, `org/x`; scoped names collide because `!##!` overlaps itself; scopes without description make the 2.0 object
unbuildable; a method named `parameters` clashes; authorization names are used json-pointer-encoded.
