# Formal model of TcM1911/stix2 in Rocq (Coq 8.16.1)

Sources are in `rocq/theories/` (logical name `Verif`).  The model is written in
plain Gallina (stdlib only): total, computable functions over byte strings,
lists, `Z`/`N` and records.  Model files contain definitions only; proofs are in
`*Facts.v` files; the property theorems are in `Prop*.v` files, each followed by
`Print Assumptions`.

## Modelling conventions

* Go `string`/`[]byte` = Coq `string` (list of 8 bit `ascii`), so bytes, not runes.
* Go `error` returns are values; panics are a separate explicit outcome
  (`Panic`), never a default value.
* Go maps are association lists with unique keys.  Iteration order is never
  relied on: everything that iterates a map is stated for every permutation.
* `interface{}` values carry their dynamic Go type.
* `reflect` based code (`valueToMap`, `filterOutNonCustom`, `setField`) is
  modelled over a table of all struct definitions, generated from `/repo` by
  `tools/gen_schema.py` and committed as `Schema.v`.
* The `encoding/json` decoder is modelled at the level of JSON trees whose
  strings and numbers keep their raw source text (needed because
  `UnmarshalJSON` methods of the library slice the raw bytes).
* `crypto/sha1` and `uuid` are modelled concretely (so test vectors of the repo
  can be recomputed); randomness, `time.Now` and decimal->double rounding are
  universally quantified parameters.

## Plan per property

| id | modelled as | proof method |
|----|-------------|--------------|
| C01-C05 | `Collection` state machine (buckets, order, noSort) | refinement to an insertion ordered map, induction over histories, permutations for map iteration |
| C06 | typed accessors with explicit type-assertion panic | from C01/C05 plus a coherence invariant; refuted without it |
| C07 | `NewBundle` over AllObjects | induction on the list |
| C08 | collection over references plus a heap | invariant over interleavings |
| C09-C16,C18 | `processObjects` as a fold with the shared `peak` map | induction over the document; refutations by `vm_compute` |
| C17 | `ToBundle` then `FromJSON` | from C20 and the fold lemmas |
| C19-C22 | generic encoder/decoder over the struct tables | mutual induction on Go types/values |
| C23 | the ten enum tables | finite check lifted, plus all-strings lemma |
| C24 | civil calendar, RFC 3339 formatter and parser | arithmetic, finite sweep over one 400 year era lifted to all |
| C25 | base64 | induction by 3-byte groups |
| C26-C28 | identifiers, `uuid.Parse`, SHA-1 UUIDs | string lemmas |
| C29 | contribution strings of multi-property observables | refuted by witnesses; partial positive results |
| C30,C35-C40 | `setField`/`applyOptions` over the option table | finite check over (option, type) lifted to all values/states |
| C31,C32 | `ForType(s)` | refuted / exact on built-in types |
| C33,C41-C44 | the 44 constructors | case analysis |
| C34 | `getIDContribution` | case analysis |
| C45-C47 | helper table | finite check + string lemmas; refutations |
| C48-C51,C53 | byte level model of `Transform` | parser correctness by induction against a grammar relation; injectivity by reading canonical texts back |
| C52 | `NumberToJSON` over shortest decimal digits | arithmetic on digit strings |
| C54-C56 | direct | case analysis |
| C57 | custom properties after FromJSON | fold lemmas of C09-C16 |
| C58 | surrogate handling of the canonicalizer | refuted by a witness; exact positive result |
| C59 | panics of the constructors | case analysis, stated as an equivalence |
| C60 | encoder against the property tables of STIX 2.1 (`Stix21.v`) | induction on types, finite check of the tables lifted to all values |
| C61 | `time` formatting and parsing against a day-counting calendar and RFC 3339 (`TimeSpec.v`) | arithmetic, both directions |
| C62 | `encoding/base64` against RFC 4648 by bits (`B64Spec.v`) | induction, both directions |
| C63 | decoder against a relation "this JSON stands for this value" (`ReadSpec.v`) | induction on JSON and types, both directions |
| C64 | getters of read objects | from C63 |
| C65 | JSON strings against UTF-8 and RFC 8259 (`StrSpec.v`) | induction, both directions |
| C66 | parser and printer against the grammar of RFC 8259 (`JsonSpec.v`) | induction, both directions |
| C67,C68 | the language of `Transform` (`lax_text` in `CanonSpec.v`) | soundness by induction on the fuel, completeness by induction on the grammar |
| C69 | a walk over the values of a document that carries the names seen so far (`DocSpec.v`) | simulation by induction over the document, both directions |
| C70 | `strconv` on doubles (`Double.v`): nearest double, shortest decimal, against binary64 over the rationals (`DoubleSpec.v`); exponents as strconv reads them (`Exponent.v`) | integer arithmetic on bit patterns, monotonicity of rounding, uniqueness of the shortest decimal |
| C71 | relation `reordered` between JSON values (`OrderSpec.v`), the grammar of C66 for white space | decoding commutes with exchanges of members; induction over the relation and over the walk of C69 |
| C72 | the grammar of JSON (`JsonSpec.v`), `from_json` and `unmarshal` on bytes | a text of a value that is no bare number has no other text as proper prefix, by induction over the grammar |
| C73 | the histories of `Add` of two collections | induction over the list of objects added |
| C74 | `marshal_bytes`, `unmarshal`, bundles; a rounding function that leaves its results alone (Go's is one) | normal forms are well formed and their own normal form, by induction over values; decoded values are well formed, by induction over JSON and types |
| C75 | the sentinel errors of constructors, options and helpers, against the tables of `ErrSpec.v`; the error text of `marshalToJSONHelper` for an empty required field | case analysis of the constructors through their uniform shape, induction over option lists and fields |
| C76 | lists of constructor calls (`MadeSpec.v`), `add`, `to_bundle`, `from_json` | constructed values are well formed, by induction over the options; then C07, C17, C43 |
| C77 | `AnyOrder.v`: decoding, FromJSON and valueToMap again, as the set of all outcomes, one visiting order chosen per loop | the model's outcome is in the set and is the only one unless all fail, by induction over the JSON value and the list of objects; insertions with distinct keys commute |
| C78 | `Depth.v`: the nesting check of encoding/json's scanner in front of reading and behind every MarshalJSON method | counting over the text equals the depth of the tree, by induction over the grammar and over the printer; encoded values are no deeper than the Go value |
| C79 | `Sha1.v`, `Ident.v` against `ShaSpec.v` (FIPS 180-4, RFC 4122) | bit-wise equality of the round functions, schedules and states by induction, uniqueness of padding and big endian numbers |
| C80 | the contributions of the observable constructors (`Constructors.v`) against `IdSpec.v` | per property the text is the canonical JSON of its value, appended in order; composed with C48 (extensions) and C79 |
| C81 | `marshal`, `bundle_bytes`, `from_json` and `transform`, against `IjsonSpec.v` and the grammar of `CanonSpec.v` | structural induction over encoded values; decoding keeps map names UTF-8 and distinct (induction over the JSON read); composed with C48 |
| C82 | `from_json`, `to_bundle`, `marshal_obj`; the walk of C69 and what it returns for written objects (`DocSpec.v`) | the names remembered while reading the second bundle are those remembered while reading the first (induction over the objects); normal forms as in C74; what a walk reads is well formed |
| C83 | `unmarshal`, `marshal`, `from_json`, `to_bundle`; walk and return of C69/C82 | what is read has defined enumeration members and generic values (induction over the JSON), so its normal form has the same encoding (induction over values; members of helper encoded objects by lookup); the names remembered in the second reading are among those of the first (induction over the walk) |
| C84 | `Stale.v`: decoding and FromJSON again, with the elements that lie behind the length of each slice | the values are the same as without them when no object repeats a name (induction over the JSON); for all texts the outcome is the same and values differ only within lists (two inductions: first the outcome for unrelated old values, then the relation) |
| C85 | `Alias.v`: reference fields hold addresses; histories of constructor calls, of assignments and of changes through addresses | the object read through memory is the one of `Constructors.v` (induction over the options); invariant over histories: an address no event passed in is held by one property, or by both time stamps of one of three types |
| C86 | `marshal_bytes`, `transform`, `unmarshal`; RFC 8785 of C59 | integers of up to 53 bits are their own shortest decimals, so the encoding determines the value and back up to the order of names (induction over the encoding); the order of names is determined by the type (second induction), so equal canonical texts come from equal texts |
| C87 | `Conc.v`: the methods of Collection as sequences of single accesses to fields, maps and array elements; goroutines that interleave these | each method run alone refines `Collection.v` (memory represents a collection); invariant over all schedules: either only readers run, on a memory nobody changes, or one Add runs alone; well-founded induction for termination |
| C88 | `Share.v`: FromJSON with memory: every member stored in `peak` gets a new address, objects copy addresses; then histories of `Set` and of changes through a reference | refinement to `FromJson.v` by induction over the document; invariant: addresses of `peak` are distinct and a member named again gets one beyond all earlier ones; separation invariant over histories |
| C89 | options as in `FromJson.v`; `OptOrderSpec.v` reads the parser in use off the list of options | invariant over the document: the type in `peak` is one that was stated; two configurations that agree on those types read the same |
| C90 | the walk of C69; `SizeSpec.v` counts members and extended properties | upper bounds from the memory model of C88 (every property has a member it comes from); lower bound for a family of documents by induction over their length |
| C91 | the loop as in `FromJson.v`; `JoinSpec.v` says what reading one after the other is | null resets `peak`, so the loop over `a, null, b` is that over `a` and then that over `b` from an empty `peak`; the collection by the invariant of C01 |
| C92 | as C91 | false in general (finding 1); if `peak` is empty after the first part, or unused, as C91 |
| C93 | as C91 | the loop over `a, b` is that over `a` and then that over `b` from some `peak`; the first failure ends it |
| C94 | `AppendSpec.v` says what is left of an object without its custom content | both loops side by side: the type is in the object itself, so the two maps need not agree; extended properties do not touch the identifier |
| C95 | as C17 and C91 | each object is read from an empty `peak`, so the round trip of one object (C20, C21) applies to all |
| C96 | as C91; `ObjOrderSpec.v` says when objects leave nothing to others | what each value gives is a function of it alone, so the results are permuted like the values; Get of distinct identifiers does not depend on the order |
| C97 | `CarrySpec.v` says which member of the objects read so far is still around (last of its name, no type with such a property and no null since) | invariant over the loop: the map processObjects keeps between the objects is what is carried |
| C98 | as C97 | same invariant, and a type that is carried is not a built in one; a CustomObject without type has no valid identifier |
| C99 | as C97, with the last member of each name since the last null, because nothing is removed from the map under DropCustomOption | same invariant; an object of a built in type without type has no valid identifier |
| C100 | as C91 and C92 | from C91 and C92: joining a collection with itself; AllObjects is determined by Get and the identifiers |
| C101 | as C97 | the invariant of C97; two reads of a value that leave the same after filtering give the same object |
| C102 | as C09, two configurations that differ in noSort | simulation of the two loops: the maps of the collections stay equal; C03 for AllObjects |
| C103 | as C09; `DocOrderSpec.v` | from C02 for the calls of Add a document makes; AllObjects is determined by Get and the identifiers |

A property whose full statement is false of the code gets a `..._refuted`
theorem with a concrete witness, the strongest true statement as `..._partial`,
and an entry under "Findings".

## Files

* Model (definitions only): `GoStr` (Go strings, results with error and panic),
  `Uuid`, `Sha1`, `Ident` (data-types.go identifiers), `JsonStr`, `Json`,
  `Float` (encoding/json texts), `Time`, `Base64`, `GoTypes`, `GoVal` (Go types
  and values), `Codec` (json.Marshal/Unmarshal with the library's methods),
  `DataTypes` (hashes, references, extensions, CustomObject), `Collection`,
  `Double` (doubles), `FromJson`, `Getters`, `Options`, `Constructors`, `Helpers`, `Tlp`, `NumFmt`,
  `Canon` (internal/jsoncanonicalizer), `AnyOrder` (loops over maps in every
  order), `Depth` (nesting limit), `Stale` (memory behind slices), `Exponent` (long exponents),
  `Alias` (addresses of reference fields).
* Generated from `/repo`: `Consts`, `Enums`, `Schema`, `OptTable`, `Accessors`
  (`tools/gen_schema.py`), `HelperTable` (`tools/gen_helpers.py`).
* Specifications, written from the standards and the documentation, not from
  the code: `CollectionSpec`, `CodecSpec`, `FromJsonSpec`, `ConstrSpec`,
  `HelperSpec`, `ErrSpec`, `MadeSpec`, `OrderSpec`, `DepthSpec`, `StaleSpec`, `AliasSpec`, `FingerSpec`, `ConcSpec`, `ShaSpec` (FIPS 180-4), `IdSpec`, `IjsonSpec`, `CanonSpec` (RFC 8785), `Stix21`, `StdEnums` and `AccessSpec` (STIX
  2.1),
  `TimeSpec` (calendar, RFC 3339), `B64Spec` (RFC 4648), `NumSpec`, `StrSpec`
  (RFC 3629, RFC 8259), `JsonSpec` (RFC 8259), `ReadSpec`, `NameSpec`
  (spelling of member names), `DocSpec`, `TextSpec`, `DoubleSpec` (IEEE 754
  binary64 over the rationals).
* Property theorems and examples: `Prop*.v`.  Everything else is lemmas.
* `tools/conformance.py` runs the model on the inputs of the project's own tests
  (decoding, constructors with options, generated identifiers, helpers, FromJSON
  on the resource files, crash inputs, TLP markings, bundles) and compares with
  what those tests assert: 1382 cases, none differ.  This is a check of the
  model against the code's authors' expectations, not a proof; the code itself
  is never run.  Tests that use table loops or values it cannot translate are
  listed by the script as skipped.
* `tools/gen_properties.py` and `tools/gen_manifest.py` write
  `properties.jsonl` and `MANIFEST.json`; `seeded/` holds the wrong programs the
  theorems were tested against (`mutants.py`, driver `run.py`, results
  `LOG.jsonl`).

## What is modelled

Every exported function and method of the package `stix2` and the internal
canonicalizer:

* data-types.go: identifiers, hashes, external references, kill chain phases,
  timestamps, binary, type lists; the ten enumerations with their methods;
* stix.go: Collection, FromJSON with its options, the typed accessors, bundles,
  the reflection based encoder;
* object.go, meta.go, extension.go: base objects, getters, markings,
  extensions, custom objects;
* option.go: all 156 option constructors and setField;
* all New* constructors and all Add* relationship helpers;
* internal/jsoncanonicalizer: Transform and NumberToJSON.

The one-line MarshalJSON methods of the object types are one generic function
(`marshal`), driven by the struct tables; enumeration methods likewise.

## What is not modelled

* The nesting limit of encoding/json (10000 levels) outside `Depth.v`; C78 shows
  that the rest of the model is exact below it.
* Memory exhaustion and integer overflow of lengths.
* Concurrency, outside `Conc.v`: the library has no goroutines and the rest of
  the model is sequential. `Conc.v` interleaves single accesses (Go's memory
  model promises this for programs without data races, and C87 proves their
  absence); the locks are taken by the calling goroutines and are modelled by
  what they allow, and the memory of the objects themselves is not in it.
* The time zone a time.Time remembers (only the instant is modelled; no method
  of the library observes the zone).
* Errors are strings. The three errors of error.go are told apart, and the text for an empty required field is modelled; other texts, and wrapping, are not.
* Stale slice elements between length and capacity when one JSON object names
  the same list property several times, outside `Stale.v`; C84 shows that they
  change nothing unless a name is repeated, and then only elements of lists.
* The theorems on encoding and decoding hold for any decimal to double rounding
  `rnd`; `Double.v` defines Go's (`go_rnd`) by what it computes, and C70 shows
  that it meets the conditions the others put on `rnd`.  strconv stops reading
  an exponent once it exceeds 10000; this is modelled in `Exponent.v` only,
  where C70 shows that it changes nothing for numbers below 9600 bytes.
* Pointers own what they point to, outside `Alias.v`, which follows the
  references of constructed objects, and `Share.v`, which follows those in the
  extended properties of objects that were read (neither follows references
  inside of what they refer to).
* Custom parsers are arbitrary functions of the JSON value (in Go: of its text, so they may also see white space); the objects they return do not share pointers.

## Findings

Statements a user would expect and that are false of the code, each with a
witness theorem (`*_refuted`) or as part of an exact characterisation:

1. FromJSON leaks extended properties of a custom or extended object into later
   objects of the document, because one map is reused (C10, C17).  A member
   without type after a custom object is taken for that custom type (C13).
2. Identifier.ForType compares prefixes, so `malware-analysis--...` passes for
   `malware` (C31, C46).
3. AttackPattern.AddUses creates a "targets" relationship (C45).
4. Observable identifiers collide: values enter the hashed text unescaped,
   absent properties leave no gap, hashes other than MD5, SHA-1, SHA-256 and
   SHA-512 contribute nothing; protocols `[]` and `[""]` give the same text
   (C29).  A Mutex renamed by OptionName keeps its identifier (C28).
5. Panics: FromJSON on one-byte values in the place of a timestamp or of two
   enumerations (C15); the GetAs* methods of CustomObject on other types and
   GetAsStringSlice on every parsed array (C54); GetCreated/GetModified of an
   extension definition without times or of a custom object with a non-string
   time (C64); typed accessors when a custom object reports a built-in type
   (C06); OptionContent on a Note (C39, C59); NewRegistryKey with a nil value
   (C59).
6. OptionBelongsTo fails on IP addresses, OptionUserID on Software, Bundle takes
   no option although OptionSpecVersion is documented for it (C37).
7. Constructors return objects that cannot be encoded: NewIdentity without
   class, NewNote with empty content, NewOpinion with 0, NewLocation with NaN,
   and options that empty a required property (C43, C44).  Location checks its
   ranges before the options are applied (C42).
8. A nil option counts as given for constructors that need one (C40);
   constructors return the object together with the error of an option.
9. Member names are compared without case on decoding but with case when the
   type is looked up (C18).
10. Timestamps are cut to milliseconds (C24); one-digit hours, commas and zone
    offsets up to 24:60 are read (C61).
11. A document that is a single object or `null` gives an empty collection; the
    type of a bundle is not checked (C09).
12. ObservedData.objects keeps only the common observable properties (C20).
13. Extended properties named "" are dropped; those named like a property of the
    base object override it (C21).
14. Enumeration names written with JSON escapes decode to the zero value, except
    for extension types; any other JSON value is taken silently (C23, C63).
15. Binary accepts arrays of numbers, line breaks and non-zero spare bits (C62).
16. The canonicalizer accepts an unpaired surrogate followed by another escape
    (C58), bytes that are not UTF-8, and number texts that are not JSON (C68).
17. Bytes that are not UTF-8 are written as `\ufffd`; unpaired surrogate escapes
    are read as U+FFFD (C65).
18. size_of_headers of a PE optional header is written as 0 when unset, and an
    empty optional_header is always written (C60).
19. identity_class is required by the library though optional in STIX 2.1 (C60).
20. Whether FromJSON returns an error or panics on the same bytes can depend on
    the order in which Go visits the extensions (C77).
21. An object of 9999 or 10000 levels can be added, bundled and written, but the
    bundle cannot be read (C78).
22. Identifiers of observables are UUIDs of an array of values; STIX 2.1, section
    2.9, takes an object of names and values, so no other implementation
    computes the same identifiers. `swid` of software does not contribute (C80).
23. Names of extensions, extended properties and custom objects that are no UTF-8
    are written with U+FFFD for the offending bytes. Two of them may become the
    same name, and the canonicalizer then rejects the text (C81).
24. A `null` in the list of objects stops extended properties from spreading to
    later objects. It is not written, so the next reading spreads them (C83).
25. When an object names a list property three times, and the second list is
    shorter than the first, parts of the first list's elements show up in the
    third (C84; the behaviour is encoding/json's).
26. Of an exponent with more than five digits only the first ones are read: a
    number written with 100000 zeros and such an exponent is read wrongly (C70;
    strconv's behaviour).
27. `NewSighting`, `NewLanguageContent` and `NewExtensionDefinition` store one
    `*Timestamp` in both `Created` and `Modified`: setting one of the times in
    place sets the other (C85).
28. Numbers of autonomous systems, sizes of files and other integers beyond 53
    bits are rounded by the canonicalizer: objects with 9007199254740992 and
    9007199254740993 have the same canonical JSON (C86).
29. Two goroutines that make the first Add calls on a collection without a lock
    can lose one of the objects although both calls succeed; Get does not find
    it and AllObjects has nil in its place (C87; the documentation does not
    promise otherwise).
30. An extended property an object inherits from an earlier object of the
    document (finding 1) is not a copy: a map or slice in
    it is shared, and changing it through one object changes the other (C88).
31. Because of finding 1, reading n objects with one extended property each makes
    n(n+1)/2 extended properties: work and memory grow with the square of the
    document (C90).
32. With DropCustomOption, `type` stays in the map that the loop over the objects
    keeps: an object without a type that is skipped without the option is read
    as one of the type before it, and FromJSON fails (C94).
33. The loop looks for `type` with its exact name, json.Unmarshal without regard
    to case.  An object with `TYPE` instead is skipped, except with
    DropCustomOption after an object of a built in type: then it is read as one
    of that type (C99, `untyped_dropped_case`).

## Wrong programs

`seeded/mutants.py` lists edits of the model that imitate realistic bugs.  Each
is applied in a scratch copy that is then rebuilt; `LOG.jsonl` records the
theorems that failed and, where none did, the theorem that was tightened.

## Trusted base

* Coq's kernel (8.16.1), including its `vm_compute` conversion.
* Axioms: `Print Assumptions` reports "Closed under the global context" for
  every property theorem.  No axioms are added and no library other than Coq's
  standard library is used.  `coqchk` also lists seven fields of the standard
  library's module type `Coq.ssr.ssrunder.Under_rel` (`Under_rel`,
  `Under_rel_from_rel`, `Under_relE`, `over_rel`, `over_rel_done`, `Over_rel`,
  `under_rel_done`); it is loaded by `Coq.micromega` (`lia`) and no theorem
  rests on it.
* The faithfulness of the hand-written model to `/repo` and of the tables
  generated by `tools/gen_schema.py` (structs, tags, options, accessors, enum
  tables) from the Go text.
* The model of the Go standard library parts used: `encoding/json` on syntax
  trees, `strconv`, `unicode/utf16`, `time` (RFC 3339), `encoding/base64`,
  `crypto/sha1`, `google/uuid`, `reflect` on the struct tables.
* Quantified, not modelled: random bytes, the current time, the rounding of
  decimals to doubles (`rnd`, except in C70), `strconv.ParseFloat` on texts that are no JSON
  numbers (`other`), map iteration order, custom parser functions.
