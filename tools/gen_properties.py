#!/usr/bin/env python3
"""Writes /verif/properties.jsonl.  Each entry: id, title, statement, quantifier, why_tests_cant, anchors."""
import json
P=[]
def p(title, statement, quantifier, why, anchors):
    P.append(dict(id="C%02d"%(len(P)+1), title=title, statement=statement, quantifier=quantifier, why_tests_cant=why, anchors=anchors))

# ---- Collection ----------------------------------------------------------
p("Get returns the last object added under an identifier",
  "After any history of Add calls, Get(id) returns the object most recently accepted by Add whose identifier was id, and nil when no such object was accepted.",
  "all collections options, all finite histories of Add calls with arbitrary objects, all identifiers",
  "the answer depends on the whole history; a test fixes one history",
  ["stix.go: Collection.Add", "stix.go: Collection.Get", "stix.go: New"])
p("AllObjects preserves insertion order",
  "On a collection created without NoSortOption, AllObjects returns every accepted identifier exactly once, in the order of its first acceptance, each with the object most recently accepted for it, and never a nil entry.",
  "all finite histories of Add calls, including re-adding the same identifier any number of times",
  "order and multiplicity must hold for every interleaving of first-adds and updates",
  ["stix.go: Collection.Add", "stix.go: Collection.AllObjects"])
p("NoSortOption only gives up the order",
  "On a collection created with NoSortOption, AllObjects returns, in some order that may change between calls, exactly the same multiset of objects as the sorted collection would after the same history.",
  "all histories of Add calls, all map iteration orders",
  "Go randomises map iteration; tests see a handful of orders",
  ["stix.go: NoSortOption", "stix.go: Collection.AllObjects", "stix.go: Collection.Add"])
p("Add accepts exactly objects with a valid identifier and is otherwise a no-op",
  "Add succeeds iff the object's identifier is '<type>--<uuid>' with <type> the object's own type and <uuid> parseable; when it fails every later query on the collection answers as if the call had not happened.",
  "all objects, all prior histories",
  "the set of identifiers is infinite and the no-op part quantifies over all later queries",
  ["stix.go: Collection.Add", "data-types.go: HasValidIdentifier"])
p("GetAll partitions the collection by type",
  "GetAll(t) returns exactly the latest objects whose type is t, each once; the results for different t are disjoint and together they are AllObjects; GetAll(t) is nil iff no object of type t was accepted.",
  "all histories, all types, all map iteration orders",
  "partition property over every history",
  ["stix.go: Collection.GetAll"])
p("Typed accessors agree with Get",
  "Every typed accessor X(id) returns the object Get(id) returns when the identifier's type is X's type, and nil otherwise; every plural accessor returns exactly the objects of its type. No typed accessor panics.",
  "all histories of objects, all 43 accessor pairs, all identifiers",
  "41 accessor pairs times all histories; the panic condition depends on which dynamic types were stored",
  ["stix.go: Collection.getObject", "stix.go: Collection.AttackPattern ... Collection.X509Certificates"])
p("ToBundle carries the whole collection in order",
  "ToBundle succeeds iff every stored object can be encoded; the bundle then has type 'bundle', a valid bundle identifier, and its objects are the encodings of AllObjects in the same order, none dropped or repeated.",
  "all collections",
  "quantifies over every collection content",
  ["stix.go: Collection.ToBundle", "bundle.go: NewBundle"])
p("Later mutation of an added object cannot corrupt the collection",
  "A collection stores references; after any interleaving of Add calls and arbitrary mutations (including of ID and Type) of objects already added, AllObjects still has no nil entry and exactly one entry per identifier accepted, and Get with the identifier used at Add time still finds the object.",
  "all interleavings of Add and field mutation",
  "interleavings are unbounded",
  ["stix.go: Collection.Add", "stix.go: Collection.AllObjects"])

# ---- FromJSON ------------------------------------------------------------
p("FromJSON is all or nothing",
  "FromJSON returns either an error and no collection, or a collection in which every object of the document that has a known type (or any type unless DropCustom) was processed; a single bad object never yields a partially filled collection.",
  "all JSON documents, all options",
  "every position and kind of failure",
  ["stix.go: FromJSON", "stix.go: processObjects"])
p("Objects in a document are parsed independently",
  "The Go object FromJSON builds for the k-th JSON object, including its extended (custom top-level) properties, depends only on that JSON object, not on the objects before it.",
  "all documents, all k",
  "requires comparing every prefix of every document",
  ["stix.go: processObjects", "stix.go: filterOutNonCustom"])
p("Own fields survive whatever precedes the object",
  "The decoded fields (everything except extended properties) of a built-in object in a parsed document are exactly those obtained by decoding that JSON object alone, whatever other objects the document contains.",
  "all documents, all positions, all built-in types",
  "all prefixes",
  ["stix.go: processObjects"])
p("DropCustom drops exactly the custom content",
  "With the drop-custom option, objects of unregistered unknown types are absent from the collection, and no object carries extended properties; objects of known types keep their own fields.",
  "all documents",
  "all documents",
  ["stix.go: DropCustomOption", "stix.go: processObjects"])
p("JSON objects without a type are skipped",
  "A JSON object without a type property contributes nothing to the collection and causes no error, wherever it stands in the document.",
  "all documents, all positions",
  "depends on what precedes it",
  ["stix.go: processObjects"])
p("Custom parsers are used for exactly their type",
  "With a custom parser registered for type t, every object of type t is built by that parser and no other object is; an error from it fails the whole parse.",
  "all documents, all registered parsers",
  "parsers are arbitrary functions",
  ["stix.go: CustomObjectOption", "stix.go: processObjects"])
p("FromJSON never panics",
  "FromJSON on any byte string returns a collection or an error; it does not panic.",
  "all JSON documents, no custom parser",
  "input space is infinite",
  ["stix.go: FromJSON", "stix.go: processObjects", "data-types.go: Timestamp.UnmarshalJSON", "artifact.go: EncryptionAlgorithm.UnmarshalJSON", "opinion.go: OpinionValue.UnmarshalJSON", "extension.go: CustomObject.GetID"])
p("Bundle form and array form are equivalent",
  "FromJSON of a bundle whose objects are L gives the same result as FromJSON of the bare JSON array L, for every option set.",
  "all lists of JSON objects, all options",
  "all lists",
  ["stix.go: FromJSON"])
p("A collection survives ToBundle and FromJSON",
  "For a collection whose objects were built by the API, parsing the JSON of ToBundle gives a collection with the same identifiers in the same order and objects equal to the originals up to millisecond timestamps.",
  "all collections of encodable objects",
  "all contents and sizes",
  ["stix.go: Collection.ToBundle", "stix.go: FromJSON", "bundle.go: NewBundle"])
p("Parsed objects are filed under the type they were parsed as",
  "After FromJSON without custom parsers, every object in the collection has the Go type that belongs to its STIX type, so that no typed accessor panics on parsed data.",
  "all documents",
  "adversarial documents",
  ["stix.go: processObjects", "stix.go: Collection.Add"])

# ---- codec ---------------------------------------------------------------
p("Encoding fails exactly when a required property is missing",
  "Encoding an object built on the STIX base types fails iff some property that is required for its type (no omitempty) is empty, or a float contained in it or in its extended properties is NaN or infinite; it never panics; otherwise each non-empty property appears once under its STIX name and each empty optional non-boolean property is absent.",
  "all values of all object types",
  "all field combinations",
  ["stix.go: objectToMap", "stix.go: valueToMap", "object.go: marshalToJSONHelper"])
p("Object round trip",
  "Decoding the encoding of any encodable object of a built-in type gives back the same object up to a stated normalisation: timestamps are truncated to milliseconds, undefined enumeration members become the zero value, empty optional nested containers become nil, contents of interface type come back as generic JSON values, and extended properties stay out of the object; an object that is already in this normal form comes back exactly equal.",
  "all object types of the library that encode through the common helper, all field values with valid UTF-8 strings",
  "all values",
  ["stix.go: valueToMap", "object.go: STIXDomainObject", "object.go: STIXCyberObservableObject", "object.go: STIXRelationshipObject"])
p("Extended properties round trip and override",
  "Extended top-level properties set on an object appear in its encoding next to its own properties, and parsing that encoding (alone) yields the same extended properties, provided their names are not empty and do not collide with the type's own property names, compared without case.",
  "all types, all extended property maps",
  "all maps",
  ["stix.go: valueToMap", "stix.go: filterOutNonCustom", "object.go: addCustomProperties"])
p("Parsed extensions have the documented Go type",
  "After parsing, the value under each predefined extension key has that extension's Go type and every other key holds a custom object, so the extension accessors on parsed File, NetworkTraffic, Process and UserAccount objects never panic.",
  "all JSON extension dictionaries",
  "all dictionaries",
  ["extension.go: Extensions.UnmarshalJSON", "file.go: File.ArchiveExtension", "network.go: NetworkTraffic.TCPExtension", "process.go: Process.WindowsProcessExtension", "user.go: UserAccount.UNIXAccountExtension"])
p("Enumerations round trip",
  "For each of the ten JSON enumerations, decoding the encoding of every defined value gives that value; distinct defined values have distinct names; an unknown name decodes without error to the zero value; each constant stands for the term of the STIX 2.1 enumeration, there are no others, and the properties with enumerated values are those of the standard.",
  "all enumerations, all values, all JSON strings",
  "all strings",
  ["artifact.go: EncryptionAlgorithm", "opinion.go: OpinionValue", "network.go: SocketAddressFamily", "network.go: SocketType", "process.go: WindowsIntegrityLevel", "process.go: WindowsServiceStartType", "process.go: WindowsServiceType", "process.go: WindowsServiceStatusType", "regkey.go: RegistryDataType", "extension.go: ExtensionType"])
p("Timestamp round trip",
  "For every instant between year 0 and 9999 and every zone, encoding then decoding a Timestamp gives the instant truncated to milliseconds, in UTC; doing it twice changes nothing more; order is preserved weakly.",
  "all instants at nanosecond resolution in years 0..9999",
  "calendar arithmetic over 3.6 million days",
  ["data-types.go: Timestamp.String", "data-types.go: Timestamp.MarshalJSON", "data-types.go: Timestamp.UnmarshalJSON"])
p("Binary round trip",
  "Decoding the encoding of any Binary value gives back the same bytes.",
  "all byte strings",
  "all lengths",
  ["data-types.go: Binary.MarshalJSON", "data-types.go: Binary.UnmarshalJSON", "data-types.go: Binary.String"])

# ---- identifiers ---------------------------------------------------------
p("Fresh identifiers are valid identifiers of their type",
  "NewIdentifier(t) for every built-in type t (and every nonempty custom type free of '--' that does not end in '-') is a valid identifier, its type part is t, and its UUID is version 4.",
  "all types, all random sources",
  "all random bytes",
  ["data-types.go: NewIdentifier", "data-types.go: IsValidIdentifier"])
p("Observable identifiers are deterministic version 5 identifiers",
  "NewObservableIdentifier(v, t) depends only on v and t, is a valid identifier of type t and its UUID has version 5 and the RFC 4122 variant.",
  "all values, all types",
  "all values",
  ["data-types.go: NewObservableIdentifier"])
p("Single-value observables: equal identifiers mean equal values",
  "For AutonomousSystem, Directory, DomainName, EmailAddress, IPv4Address, IPv6Address, MACAddress, Mutex and URL, two objects get the same identifier iff their identifying values are equal, unless SHA-1 truncated to a UUID collides on two different byte strings (which the theorem exhibits).",
  "all values, all option lists",
  "all pairs of values",
  ["as.go: NewAutonomousSystem", "directory.go: NewDirectory", "dns.go: NewDomainName", "email.go: NewEmailAddress", "ip.go: NewIPv4Address", "ip.go: NewIPv6Address", "mac.go: NewMACAddress", "mutex.go: NewMutex", "url.go: NewURL"])
p("Multi-property observables: equal identifiers mean equal contributing properties",
  "For Artifact, EmailMessage, File, NetworkTraffic, RegistryKey, Software, UserAccount and X509Certificate, two objects get the same identifier only if all their ID contributing properties are equal (absent a SHA-1 collision).",
  "all pairs of objects",
  "needs pairs over infinite value spaces",
  ["artifact.go: NewArtifact", "email.go: NewEmailMessage", "file.go: NewFile", "network.go: NewNetworkTraffic", "regkey.go: NewRegistryKey", "software.go: NewSoftware", "user.go: NewUserAccount", "x509.go: NewX509Certificate"])
p("Observable identifiers ignore non-contributing options",
  "The identifier of a constructed cyber-observable does not depend on options that set properties which are not ID contributing, nor on the order of options that set different properties.",
  "all constructors, all option lists, all permutations",
  "all option lists",
  ["option.go: applyOptions", "option.go: setField"])
p("Type test on identifiers is exact",
  "id.ForType(t) holds iff the type part of id is t; ForTypes(ts) iff the type part is one of ts.",
  "all identifiers, all types",
  "all identifiers",
  ["data-types.go: Identifier.ForType", "data-types.go: Identifier.ForTypes"])
p("Type test is exact on built-in types with one exception",
  "For identifiers whose type part is a built-in type, ForType(t) with t built-in is exact except for t = malware on malware-analysis identifiers.",
  "all pairs of built-in types, all UUID parts",
  "pairs of types times all suffixes",
  ["data-types.go: Identifier.ForType", "data-types.go: AllTypes"])
p("Everything a constructor returns can be added",
  "Whenever a constructor returns a nil error, Collection.Add accepts the object.",
  "all constructors, all arguments, all option lists, all random sources",
  "all argument values",
  ["stix.go: Collection.Add", "object.go: newSTIXDomainObject", "object.go: newSTIXCyberObservableObject", "object.go: newSTIXRelationshipObject"])
p("Hash contribution priority",
  "The hash used for an identifier is the MD5 if present, else SHA-1, else SHA-256, else SHA-512, and empty if none of them is present; other algorithms never influence it.",
  "all hash maps",
  "all maps",
  ["data-types.go: Hashes.getIDContribution"])

# ---- options -------------------------------------------------------------
p("An option changes exactly its property",
  "Applying an option that succeeds sets the named property to the given value and leaves every other property of the object untouched; an option that fails leaves the object untouched.",
  "all options, all object types, all object states, all values",
  "117 options times 42 types times all states",
  ["option.go: setField", "option.go: getFieldFromBaseStruct"])
p("No option changes type or identifier",
  "No exported option can change an object's Type or ID.",
  "all options, all types, all values, all option lists",
  "all option lists",
  ["option.go"])
p("Documented option applicability",
  "Every option succeeds on every object type its documentation lists.",
  "all options, all documented types, all values",
  "the tests cover a few per option",
  ["option.go: doc comments", "option.go: setField"])
p("Options on different properties commute; on the same property the last wins",
  "Swapping two adjacent options that target different properties does not change the resulting object; when two options target the same property, the result is that of the later one.",
  "all option lists, all types, all states",
  "all lists",
  ["option.go: applyOptions", "option.go: setField"])
p("Options never panic",
  "Applying any option to any STIX object returns nil or an error but does not panic.",
  "all options, all types",
  "product of options and types",
  ["option.go: setField", "option.go: OptionContent", "option.go: OptionExtension"])
p("A failing option is reported",
  "If any option in the list fails, the constructor returns an error; options after it are not applied; nil options are ignored.",
  "all constructors, all option lists",
  "all lists",
  ["option.go: applyOptions"])

# ---- constructors --------------------------------------------------------
p("Constructors validate their required arguments",
  "Each constructor called without options fails iff one of its required arguments is missing or out of range (table args_bad in ConstrSpec.v, from the documentation) or it documents that at least one property must be given by an option; otherwise every property is the argument given for it, the type, the spec version, an equal created and modified timestamp (SDO/SRO), or unset.",
  "all constructors, all argument values",
  "all values",
  ["New* in all object files"])
p("Value range validation",
  "A Sighting returned without error has count in 0..999999999 and first_seen not after last_seen; a Campaign returned without error has first_seen not after last_seen; a Location has latitude in -90..90 and longitude in -180..180, and a precision only with coordinates; an Artifact has exactly one of payload and url, and url only with hashes; a family Malware has a name.",
  "all arguments and option lists",
  "all numeric values and option lists",
  ["sighting.go: NewSighting", "campaign.go: NewCampaign", "location.go: NewLocation", "artifact.go: NewArtifact", "malware.go: NewMalware"])
p("Whatever a constructor returns can be encoded",
  "Whenever a constructor returns a nil error, the object can be encoded to JSON.",
  "all constructors, all arguments, all option lists",
  "all values",
  ["identity.go: NewIdentity", "note.go: NewNote", "opinion.go: NewOpinion", "stix.go: valueToMap"])
p("Constructor argument checks imply encodability except for listed constructors",
  "Without options, every successful constructor except NewIdentity, NewNote and NewOpinion returns an encodable object, provided that no argument contains NaN or an infinity; NewIdentity never does, NewNote does iff the content is not empty, and NewOpinion iff the value is not zero.",
  "all constructors, all arguments",
  "all values",
  ["New* in all object files", "stix.go: valueToMap"])

# ---- relationships -------------------------------------------------------
p("Relationship helpers build the relationship they are named after",
  "For every Add<Relation> helper, a successful call returns a relationship whose type is the helper's relation, whose source is the receiver and whose target is the given identifier.",
  "all helpers, all receivers, all targets",
  "all targets",
  ["attack.go: AttackPattern.AddUses", "relationship.go: NewRelationship", "campaign.go", "malware.go", "threat-actor.go", "tool.go"])
p("Relationship helpers accept exactly the allowed target types",
  "Every Add<Relation> helper succeeds iff the target is a valid identifier whose type is one of the documented target types.",
  "all helpers, all target identifiers",
  "all identifiers",
  ["data-types.go: Identifier.ForTypes", "malware.go: Malware.AddAuthoredBy", "tool.go"])
p("Common relationships",
  "AddDerivedFrom, AddDuplicateOf and AddRelatedTo return a relationship with the corresponding type, source the receiver, target the argument, and fail iff the receiver's or the given identifier is empty.",
  "all objects, all targets",
  "all identifiers",
  ["object.go: AddDerivedFrom", "object.go: AddDuplicateOf", "object.go: AddRelatedTo"])

# ---- canonicalizer -------------------------------------------------------
p("Canonicalization computes the canonical text of the value",
  "For every JSON text of an object or array value with pairwise distinct member names, the canonicalizer succeeds and returns the RFC 8785 canonical text of that value: no whitespace, members sorted by UTF-16 code units, minimal escapes, ES6 numbers.",
  "all JSON values, all ways of writing them (whitespace, escapes, number spelling, member order)",
  "infinite grammar",
  ["internal/jsoncanonicalizer/jsoncanonicalizer.go: Transform"])
p("Canonicalization is idempotent",
  "Whatever the input, a text the canonicalizer returns is one it returns unchanged; for I-JSON input it is I-JSON again and denotes the same value.",
  "all byte strings the canonicalizer accepts",
  "all texts",
  ["internal/jsoncanonicalizer/jsoncanonicalizer.go: Transform"])
p("Canonicalization ignores member order and whitespace",
  "Two texts of the same JSON value up to member order, whitespace, escape and number spelling have the same canonical text, and texts of different values have different ones.",
  "all pairs of texts",
  "all pairs",
  ["internal/jsoncanonicalizer/jsoncanonicalizer.go: Transform"])
p("Duplicate members are rejected",
  "A JSON object with two members whose decoded names are equal is rejected wherever it occurs.",
  "all objects, all positions of the duplicates",
  "all positions",
  ["internal/jsoncanonicalizer/jsoncanonicalizer.go: Transform"])
p("Numbers are written as ECMAScript writes them",
  "For every finite double the number text equals ECMAScript's Number::toString of it.",
  "all finite doubles given by their shortest decimal digits and exponent",
  "2^64 doubles",
  ["internal/jsoncanonicalizer/es6numfmt.go: NumberToJSON"])
p("Canonicalizer terminates and never reads out of bounds",
  "On every byte string the canonicalizer terminates with a result or an error without indexing outside the input.",
  "all byte strings",
  "all byte strings",
  ["internal/jsoncanonicalizer/jsoncanonicalizer.go: Transform"])

# ---- misc ----------------------------------------------------------------
p("Custom object get/set laws",
  "On a CustomObject, Get after Set of the same key returns the value set, other keys are unaffected, and the typed getters return the value when it has the requested type and the zero value when the key is absent, without panicking.",
  "all custom objects, keys and values",
  "all maps",
  ["extension.go: CustomObject.Get", "extension.go: CustomObject.Set", "extension.go: CustomObject.GetAsString", "extension.go: CustomObject.GetAsStringSlice", "extension.go: CustomObject.GetAsNumber"])
p("External references and kill chain phases validate",
  "NewExternalReference fails iff the name is empty or all of description, url and external id are empty; NewKillChainPhase fails iff one of its arguments is empty; on success they carry the arguments.",
  "all arguments",
  "all strings",
  ["data-types.go: NewExternalReference", "data-types.go: NewKillChainPhase"])
p("Predefined TLP markings are well formed",
  "Each predefined TLP marking can be added to a collection, encodes, and decodes to itself.",
  "the four constants",
  "settled by evaluation of the model, listed for completeness of the collection round trip",
  ["meta.go: TLPWhite", "meta.go: TLPGreen", "meta.go: TLPAmber", "meta.go: TLPRed"])
p("Custom properties are kept and not invented",
  "Without custom parsers and the drop-custom option, every member of a parsed object that is not a property of its type becomes an extended property of the Go object with the generic value of that member, and every extended property is a member of that JSON object or of one before it in the document.",
  "all documents and all objects in them",
  "all member names, values and documents",
  ["stix.go: processObjects", "stix.go: filterOutNonCustom", "object.go: addCustomProperties"])
p("Unpaired surrogate escapes are rejected by the canonicalizer",
  "A string literal with a \\u escape of a surrogate that is not one half of a pair is rejected, not silently replaced.",
  "all string literals, all positions of the escape",
  "all strings and escapes",
  ["internal/jsoncanonicalizer/jsoncanonicalizer.go: Transform"])
p("Constructors do not panic",
  "No constructor panics, whatever its arguments and options.",
  "all constructors, all arguments, all option lists",
  "all values and option lists",
  ["note.go: NewNote", "regkey.go: NewRegistryKey", "option.go: applyOptions"])
p("Encoded objects use the standard's property names and value kinds",
  "An encoded object of a built-in type has only members named in the STIX 2.1 property table of its type or added as extended properties, each with the kind of JSON value the table gives, every property the table marks as always present is there, no name occurs twice; the library has exactly the tabled types; predefined extensions have the standard's keys and members.",
  "all built-in object types, all storable values, all extended properties",
  "all field values of all types; tests compare the library with itself",
  ["object.go: marshalToJSONHelper", "extension.go: Extensions", "stix.go: STIXType"])
p("Timestamps are written and read as the instants they denote",
  "Every instant of the years 0 to 9999 is written as its UTC date and time with milliseconds, the rest dropped; a text is read iff it is a valid Gregorian date, time of day, optional fraction and zone in RFC 3339 form (with a one-digit hour or a comma also taken), and it is read as the instant it denotes including the zone offset.",
  "all instants of the years 0 to 9999, all byte strings between quotes",
  "all dates, offsets, fraction lengths and texts",
  ["data-types.go: Timestamp.String", "data-types.go: Timestamp.MarshalJSON", "data-types.go: Timestamp.UnmarshalJSON"])
p("Binary properties are RFC 4648 base64",
  "Binary values are written as the padded base64 text of their bytes with zero spare bits; a JSON value is read into a binary property iff it is null, an array of byte-sized integers, or a string that without its line breaks is base64 text, and it is read as the bytes it carries; anything else is an error.",
  "all byte strings, all JSON texts",
  "all byte strings and texts",
  ["data-types.go: Binary.MarshalJSON", "data-types.go: Binary.UnmarshalJSON"])
p("A read object says what its JSON says",
  "When reading an object of a built-in type succeeds, every property holds the value its JSON member stands for: the string with its escapes resolved, the integer (never a wrapped, cut or zeroed one), the rounded decimal number, the instant, the bytes, the enumeration member, the list element by element, the map key by key, the nested object property by property; a property without member is empty. Conversely a text whose members all stand for something is read without error. FromJSON fills the fields of its objects so, and what is encoded stands for the object.",
  "all built-in types, all JSON texts, all roundings, all FromJSON documents",
  "all values and nestings of JSON texts",
  ["stix.go: FromJSON", "object.go: json.Unmarshal uses", "data-types.go: UnmarshalJSON methods", "extension.go: Extensions.UnmarshalJSON"])
p("The getters of a read object report its JSON members",
  "For every object FromJSON returns, GetID, GetType, GetCreated and GetModified report what the members id, type, created and modified say (nil for a time that is not stated, always nil for observables and for the modification time of markings), GetExtendedTopLevelProperties reports the extended properties or nil, and none of them panics.",
  "all documents FromJSON accepts, all objects in them, built-in and custom",
  "all documents and objects",
  ["object.go: STIXDomainObject.GetCreated", "object.go: STIXCyberObservableObject.GetCreated", "meta.go: MarkingDefinition.GetModified", "extension.go: ExtensionDefinition.GetCreated", "extension.go: CustomObject.GetCreated"])
p("Strings are read and written as Unicode text",
  "A JSON string is read into a string property iff its text is a string of RFC 8259 whose escapes are valid, and the property then holds the UTF-8 encoding of exactly the characters the text stands for (surrogate pairs combined, unpaired ones and stray bytes as U+FFFD); a string is written as text standing for its characters, with control characters and the characters special in HTML and JavaScript escaped.",
  "all byte strings, all JSON texts",
  "all characters, escapes and byte sequences",
  ["object.go: json.Unmarshal uses", "object.go: marshalToJSONHelper"])
p("Only JSON is read and only JSON is written",
  "FromJSON fails on every input that is not a JSON text of RFC 8259 and does not panic on it; a text denotes one value; every encoded object and every bundle of a collection is a JSON text, valid UTF-8 without characters special in HTML, whatever bytes the strings of the objects hold.",
  "all byte strings; all types and values; all Add sequences",
  "all inputs and objects",
  ["stix.go: FromJSON", "object.go: marshalToJSONHelper", "bundle.go: NewBundle"])
p("The canonicalizer accepts exactly its language",
  "The canonicalizer succeeds on an input iff the input is the text of an array or object in its grammar (JSON structure; strings with valid escapes, a surrogate escape followed by another escape; numbers as strconv.ParseFloat takes them) in which no object has two names equal as UTF-16, and then it returns the canonical text of that value; on every other input it returns an error.",
  "all byte strings, all number parsers",
  "all inputs, malformed ones included",
  ["internal/jsoncanonicalizer/jsoncanonicalizer.go: Transform"])
p("The canonicalizer rejects what is not JSON",
  "Every input the canonicalizer accepts is a JSON text of RFC 8259.",
  "all byte strings",
  "all inputs, malformed ones included",
  ["internal/jsoncanonicalizer/jsoncanonicalizer.go: Transform"])
p("The result of FromJSON is determined value by value",
  "FromJSON returns a collection iff its input is a document whose values, read in order, each yield nothing or an object with a valid identifier, and then the collection holds exactly those objects; it panics iff some value makes it panic after the values before it were read; on everything else it returns an error. What a value yields depends only on the value, the options and the member names left over from the values before it.",
  "all byte strings, all options, all custom parsers",
  "all documents, including duplicate names, missing types, nulls and custom types in any order",
  ["stix.go: FromJSON", "stix.go: processObjects", "stix.go: filterOutNonCustom"])
p("Numbers are read and written as IEEE 754 doubles",
  "A JSON number of fewer than 9600 bytes, with an exponent of any size, is read as the double nearest to it (ties to even), and is an error iff it is out of range; every double, of either sign, is written as the JSON number of its shortest decimal, nearest to the double among the shortest, and reading this text gives the same double. Range checks on coordinates compare the doubles, and canonical numbers are the ECMAScript texts of the shortest decimals of the nearest doubles.",
  "all number texts, all doubles",
  "2^64 doubles and unboundedly many decimals, ties and subnormals included",
  ["object.go: marshalToJSONHelper", "location.go: NewLocation", "internal/jsoncanonicalizer/jsoncanonicalizer.go: Transform", "internal/jsoncanonicalizer/es6numfmt.go: NumberToJSON"])
p("White space and the order of members do not change what is read",
  "Without custom parsers, two texts of the same JSON value are read by FromJSON with the same result. If the texts differ in the order of the members of objects (and no object has two names that the decoder identifies), one is read as a collection iff the other is read as the same collection; the same holds for decoding a single object. Whether a text that is not read gives an error or a panic can depend on the order.",
  "all JSON texts, all reorderings at every depth, all options without custom parsers",
  "all permutations of all objects in all documents",
  ["stix.go: FromJSON", "stix.go: processObjects"])
p("A torn document is never read as a complete one",
  "If FromJSON accepts a document, it rejects every proper prefix of it except those that only lack trailing white space, and every extension of it with something other than white space; the same holds for decoding a single object.",
  "all documents, all cut points, all appended bytes",
  "every crash point of a writer, for every document",
  ["stix.go: FromJSON", "bundle.go: NewBundle"])
p("Collections are merged by adding the objects of one to the other",
  "Adding all objects that AllObjects returns for a source collection to a target collection succeeds for each; afterwards an identifier held by the source yields the source's object and every other identifier what the target held; with order kept, the identifiers of the target come first, in their order, then the new ones in the order of the source. Into an empty collection this gives a copy: the same objects under Get, AllObjects and the typed accessors.",
  "all pairs of collections reached by Add calls, all options",
  "all histories of two collections",
  ["stix.go: Collection.Add", "stix.go: Collection.AllObjects", "stix.go: Collection.Get"])
p("One round trip settles an object",
  "What is read back from the encoding of an object is read back unchanged from its own encoding, whenever it can be encoded; this holds for every object built in Go and for everything read from any JSON text (with years 0 to 9999 and no null extension), and for the collections read from bundles. It need not be encodable: an undefined member of an enumeration is lost in the first round trip.",
  "all built-in types and well formed values, all JSON texts, all collections reached by Add calls",
  "all chains of encoders and decoders",
  ["object.go: marshalToJSONHelper", "stix.go: FromJSON", "stix.go: Collection.ToBundle"])
p("The errors of the API say what is wrong",
  "A constructor called without a required argument returns ErrPropertyMissing (domain and meta objects) or ErrInvalidParameter (observables and extension definitions), a location with impossible coordinates ErrInvalidProperty, and process, registry key, user account and X.509 certificate without options ErrPropertyMissing; properties that do not go together after the options give the error listed for the type. Every error of a constructor has one of these causes or comes from an option, and options never fail with one of the three errors of the API. A relationship helper returns ErrInvalidParameter only for a target that it accepts under no options. When an object with an empty required property is encoded, the error names such a property.",
  "all constructors, arguments, option lists, helpers, receivers, targets; all values of the object types",
  "the product of arguments, options and checks is infinite; tests only assert that some error is returned",
  ["error.go: ErrPropertyMissing", "error.go: ErrInvalidProperty", "error.go: ErrInvalidParameter", "location.go: NewLocation", "artifact.go: NewArtifact", "sighting.go: NewSighting", "option.go: setField", "object.go: marshalToJSONHelper"])
p("Constructed objects survive the way through a collection, a bundle and FromJSON",
  "If constructors are called with arguments and options whose values JSON can carry, and the objects have their required properties, then every object can be added to a collection, the collection can be written as a bundle, FromJSON reads its text, and every identifier yields the last object constructed under it, with its properties in normal form (unchanged if they were); no other identifier yields anything, and the order is that of construction. The getters of a constructed object report its type, a valid identifier of this type, the time of construction or the time set by an option, and no extended properties.",
  "all lists of constructor calls with all arguments, options, random bytes and times",
  "all programs that construct, store, write and read objects",
  ["stix.go: Collection.Add", "stix.go: Collection.ToBundle", "stix.go: FromJSON", "object.go: newSTIXDomainObject", "bundle.go: NewBundle"])
p("The order in which Go visits its maps changes no result",
  "Go visits maps in an unspecified order: the extensions of an object being read, its extended properties when they are copied and when they are written, the tables of the enumerations. If FromJSON or json.Unmarshal succeeds on some bytes in one execution it succeeds in all of them with the same result, and an object is always encoded to the same bytes. (Full statement: the outcome is the same in all executions. This is false of the code: the same bytes can give an error in one execution and a panic in the next.)",
  "all byte strings, options and types; all objects; all visiting orders at every loop of an execution",
  "the order is chosen anew by the runtime in every execution",
  ["extension.go: Extensions.UnmarshalJSON", "stix.go: processObjects", "stix.go: valueToMap", "artifact.go: EncryptionAlgorithm.UnmarshalJSON", "network.go: SocketAddressFamily.UnmarshalJSON"])
p("Deep documents are rejected, and nothing else changes",
  "JSON nested to at most 10000 levels is read by FromJSON and json.Unmarshal as described by the other properties, deeper JSON is an error of both. Values of at most 10000 levels are encoded as described there, and what a MarshalJSON method of the library returns is never too deep to be read. If no object of a collection has more than 9998 levels its bundle is made, written and read as described there. (Full statement: every bundle that can be written can be read. This is false of the code: the two levels a bundle adds are not counted when it is written.)",
  "all JSON texts of every depth, all values, all collections reached by Add calls",
  "depth is unbounded; no test goes near the limit",
  ["stix.go: FromJSON", "stix.go: Collection.ToBundle", "bundle.go: NewBundle", "object.go: marshalToJSONHelper"])
p("Identifiers of observables are those other implementations compute",
  "The identifier that NewObservableIdentifier makes for a value and a type is the type and the name-based UUID of the value as defined by RFC 4122, section 4.3, in the name space of the STIX standard, with SHA-1 as defined by FIPS 180-4; no other UUID satisfies the definition.",
  "all values (up to the 2^64 bits for which SHA-1 is defined), all types",
  "messages of every length, with every padding and number of blocks",
  ["data-types.go: NewObservableIdentifier", "data-types.go: CyberObservableNamespace"])
p("The identifier of an observable is the standard's recipe applied to its contributing properties",
  "The identifier of an observable made by a constructor is its type and the version 5 UUID, in the name space of the standard, of the RFC 8785 text of a JSON array: the values of the contributing properties that are set, in a fixed order, a time in UTC to the millisecond, bytes in base64, of the hashes only the preferred one, of the extensions their canonical form; for observables with one contributing property it is the argument of the constructor. This holds if the text properties contain no quotation mark, backslash or control character and the required properties are set. (Full statement: it is the UUID the standard prescribes. This is false of the code: the standard takes an object of names and values, not an array of values.)",
  "all constructors of observables but NewProcess, all arguments and options, all values of the contributing properties",
  "all combinations of set and unset properties of every length",
  ["data-types.go: NewObservableIdentifier", "data-types.go: Hashes.getIDContribution", "network.go: NewNetworkTraffic", "regkey.go: NewRegistryKey", "file.go: NewFile", "software.go: NewSoftware", "object.go: canonicalizeExtensions"])
p("What the library writes is I-JSON, and its own canonicalizer takes it",
  "The JSON of an object, and the bundle of a collection after any sequence of Add calls, is I-JSON text (RFC 7493): UTF-8, surrogates in pairs, numbers that are doubles, whatever bytes the strings of the objects hold. If the names of the maps in the objects are UTF-8, no JSON object in the text, at any depth, has a name twice, and the canonicalizer accepts the text and gives its RFC 8785 form. Everything that was read from a document is of this kind: the bundle of what FromJSON returned always has a canonical form. (Full statement: without the condition on names. This is false of the code: two names that are no UTF-8 are written alike.)",
  "all objects, extended properties, extensions and nested maps, all histories of Add, all documents read",
  "values of every depth and size with all bytes",
  ["object.go: marshalToJSONHelper", "stix.go: valueToMap", "stix.go: FromJSON", "stix.go: Collection.ToBundle", "bundle.go: Bundle", "internal/jsoncanonicalizer/jsoncanonicalizer.go: Transform"])
p("A document that was read, written and read does not change any more",
  "Read any document with FromJSON, write the collection with ToBundle and read that bundle: from then on writing and reading gives the same collection, with the same objects, extended properties and custom objects in the same order, although FromJSON lets extended properties spread to later objects and rounds times and numbers. The same for any collection made with Add. Provided there are no parsers for custom types, times have years from 0 to 9999, each object has the Go type of its type property and no extended property has the name of an own property in another case (without this it is false of the code).",
  "all documents, all collections after any history of Add, all further rounds of writing and reading",
  "documents of every size and all ways properties can spread",
  ["stix.go: FromJSON", "stix.go: processObjects", "stix.go: Collection.ToBundle", "object.go: marshalToJSONHelper", "extension.go: CustomObject"])
p("Rewriting a document reproduces its text",
  "An object that was read with json.Unmarshal and written with json.Marshal is written as exactly the same text when that text is read again. The same for whole documents: read one with FromJSON, write it with ToBundle, read the bundle, and ToBundle succeeds and gives the same text of every object in the same order, although extended properties spread to later objects while reading; only the new random identifier of the bundle differs. For documents without null values in the list of objects and without repeated identifiers (with a null it is false of the code), without parsers for custom types, with times of the years 0 to 9999, objects of the Go type of their type property and no extended property with the name of an own property in another case.",
  "all JSON texts of objects of every type, all such documents, with and without custom data",
  "all texts in and out of normal form, documents of every size and all ways properties can spread",
  ["stix.go: FromJSON", "stix.go: processObjects", "stix.go: Collection.ToBundle", "object.go: marshalToJSONHelper", "bundle.go: NewBundle"])
p("Discarded list elements do not come back",
  "When an object of a JSON text names a list property repeatedly, elements of an earlier list that a later, shorter list discarded never show up in what FromJSON and json.Unmarshal return. (False of the code.) True when no object of the text names a property twice, ignoring case. And for every text, with any repetitions: the calls succeed, fail or panic as if discarded elements were gone, the collection has the same identifiers, types and order, and the objects are the same outside of lists, with lists of the same lengths.",
  "all texts, all options and parsers, all Go types and prior contents of the variable read into",
  "the effect needs three lists of particular lengths; every nesting of repeated members has to be considered",
  ["stix.go: FromJSON", "stix.go: processObjects", "extension.go: Extensions.UnmarshalJSON", "object.go: STIXDomainObject", "data-types.go: ExternalReference"])
p("Objects share no memory unless the caller shares it",
  "A constructor call changes nothing that exists: not its arguments, not any object made before, also when it fails. An object holds the very references passed for its properties, not copies, so what the caller changes there later changes in the object. A change made in place through a reference that was not passed in by the caller shows in one property of one object. (Full statement, false of the code: NewSighting, NewLanguageContent and NewExtensionDefinition put one pointer into both Created and Modified, so a change of one time in place changes the other.) True for all other properties and types, and for histories of any length.",
  "all histories of constructor calls with all arguments and options, field assignments and changes through references, with any sharing among the caller's own references",
  "every pair of properties of every pair of objects after every history",
  ["sighting.go: NewSighting", "meta.go: NewLanguageContent", "extension.go: NewExtensionDefinition", "object.go: newSTIXDomainObject", "object.go: newSTIXRelationshipObject", "option.go: setField", "option.go: OptionExtension"])
p("Canonical JSON is a fingerprint of objects",
  "Two objects of the same type whose JSON has the same canonical form have the same JSON, and if they are objects that a round trip gives back, they are the same object; comparing canonical texts decides equality of objects. (Full statement: for all objects. This is false of the code: integers beyond 53 bits are rounded by the canonicalizer, negative zero becomes zero, and a Go struct put into an extended property is written in another order than the equal map.) True when integers have at most 53 bits and no number is negative zero and times have years 0 to 9999, for all objects that were read from any text, and for objects made otherwise whose extended properties hold generic values under UTF-8 names of their own.",
  "all pairs of objects of every type, with extensions, extended properties and nested maps of every depth",
  "all pairs of values",
  ["object.go: marshalToJSONHelper", "stix.go: valueToMap", "internal/jsoncanonicalizer/jsoncanonicalizer.go: Transform", "internal/jsoncanonicalizer/es6numfmt.go: NumberToJSON"])
p("Goroutines can share a collection behind a lock, and read it without one",
  "Goroutines that share a collection and take a sync.Mutex around every call, or a sync.RWMutex that reading calls take for reading, never race for its memory; each gets its calls done in its order, no goroutine hangs, and every call returns what it would return if all calls were made one at a time in the order they return. So no object is lost: Get and AllObjects report the last successful Add of every identifier. Once the Add calls have returned, any number of goroutines may read at the same time without a lock; the collection does not change. (Without a lock this is false as soon as one goroutine adds: two first Add calls can both succeed and lose an object.)",
  "all numbers of goroutines, all sequences of calls of each, all schedules of their single memory accesses, all orders of map iteration, all ways slices grow",
  "the number of schedules grows exponentially with the accesses; tests see a few of them",
  ["stix.go: Collection", "stix.go: Collection.Add", "stix.go: Collection.Get", "stix.go: Collection.AllObjects", "stix.go: Collection.GetAll", "stix.go: Collection.getObject"])
p("Extended properties of one object read from a document are changed without changing another's",
  "Setting an extended top-level property of an object that FromJSON returned shows in that property of that object and in nothing else, whatever was done to the objects before. Changing the value of such a property in place (a map or a list in it) shows in another object of the document exactly when that object has the property too and no JSON object after the first of the two, up to the second, has a member of that name; so if the extended properties of every object are members of its own JSON text, no object ever sees a change of another. (That no change in place is ever seen in another object is false: an object inherits the value itself, not a copy.)",
  "all documents, all configurations, all histories of Set calls and of changes in place, all pairs of objects and property names",
  "documents and histories are unbounded; tests rarely modify what they read",
  ["stix.go: processObjects", "extension.go: CustomObject.Set", "extension.go: CustomObject.Get", "object.go: STIXDomainObject.GetExtendedTopLevelProperties"])
p("Only the set of options and the last parser of each type matter",
  "FromJSON gives the same result for two lists of options if both or neither contain NoSortOption, both or neither contain DropCustomOption, and for every type stated in the document the last parser given is the same. So options may be given in any order unless two name parsers for one type, repeating an option changes nothing, a nil parser takes back an earlier one, and a parser for a type the document does not state has no effect.",
  "all documents, all lists of options, all parsers, all roundings of numbers",
  "options can be combined in unboundedly many ways",
  ["stix.go: NoSortOption", "stix.go: DropCustomOption", "stix.go: UseCustomParser", "stix.go: New", "stix.go: FromJSON", "stix.go: processObjects"])
p("What is read is in proportion to the document",
  "Without custom parsers, an object FromJSON makes has at most as many extended properties as its JSON object and the JSON values before it have members, and all objects together have at most the number of values times the number of members; if the extended properties of every object are members of its own JSON text, all objects together have at most as many extended properties as the document has members. (That a constant factor bounds them in general is false: n objects with one extended member each make n(n+1)/2 extended properties.)",
  "all documents that are read, of any number of objects and members, all configurations without custom parsers",
  "the number of objects is unbounded; small documents do not show the growth",
  ["stix.go: FromJSON", "stix.go: processObjects", "stix.go: filterOutNonCustom"])
p("A null among the objects makes a fresh start",
  "If the list of objects of a document has a null in it, FromJSON reads what is before the null and what is after it as two documents of their own, and the result is the first collection with the objects of the second added: Get prefers the second, AllObjects lists the objects of the first and then the new ones of the second, and the first error or panic is that of the whole. So with a null after every object, every object is read as it is read alone, with all options and parsers: nothing of one object shows on another.",
  "all documents, all positions of nulls, all configurations, all parsers, all roundings of numbers",
  "documents and their parts are unbounded",
  ["stix.go: FromJSON", "stix.go: processObjects", "stix.go: Collection.Add"])
p("Reading a concatenated document is reading its parts one after the other",
  "FromJSON of a document whose objects are those of one document followed by those of another gives the collection of the first with the objects of the second added, and the first error or panic of the two. (Full statement: for all pairs of documents. This is false of the code: extended properties of the first document show on objects of the second.) True if the objects of the first have no properties but those of their type, or if custom content is dropped and every object of the second states a type.",
  "all pairs of documents, all configurations",
  "documents are unbounded",
  ["stix.go: FromJSON", "stix.go: processObjects", "stix.go: filterOutNonCustom"])
p("Appending to a document only adds to what is read",
  "If FromJSON reads a document and also the document with further objects appended, the second result is the first with what the appended objects contribute added: nothing is lost, an object stays as it is unless an appended object has its identifier, and AllObjects begins with the same identifiers. If the shorter document fails, the longer one fails with the same error or panic.",
  "all documents, all continuations, all configurations and parsers",
  "documents and their continuations are unbounded",
  ["stix.go: FromJSON", "stix.go: processObjects", "stix.go: Collection.Add"])
p("DropCustomOption only leaves out",
  "If FromJSON reads a document without DropCustomOption, it reads it with the option too, and the result differs only in that custom objects without a parser are missing and the other objects have no extended properties. (Full statement: for all documents. This is false of the code: with the option, an object without a type is taken to be of the type of the object before it, and FromJSON fails.) True if every object states its type.",
  "all documents, all configurations and parsers",
  "all documents have to be read in two ways",
  ["stix.go: DropCustomOption", "stix.go: processObjects"])
p("A bundle with a null after each object survives reading, extended properties included",
  "If a caller puts a null after each entry of the objects of the bundle ToBundle returns, FromJSON of its JSON gives back every object of the collection as it comes back alone: under the same identifier, in the same order, with its own extended properties and no others. Objects in normal form come back as they were. (Without the nulls this is false, see C17.)",
  "all collections of built in objects with any extended properties and of custom objects, all configurations without parsers for their types",
  "collections are unbounded",
  ["stix.go: Collection.ToBundle", "bundle.go: Bundle", "stix.go: FromJSON", "stix.go: processObjects"])
p("The order of the objects of a document only matters for the order of AllObjects",
  "If two documents have the same objects in another order, and no two of the objects have the same identifier, FromJSON reads both or neither, Get gives the same objects, and AllObjects gives the same objects in some order. (Full statement: for all documents. This is false of the code: extended properties spread to the objects that come after.) True if all objects have only properties of their type, or if custom content is dropped and every object states a type; and with a null after each object it is true for all objects.",
  "all documents and all permutations of their objects, all configurations",
  "a document of n objects has n! orders",
  ["stix.go: FromJSON", "stix.go: processObjects", "stix.go: Collection.Add", "stix.go: Collection.AllObjects"])
p("The extended properties of a read object are exactly what reaches it",
  "Without custom parsers and DropCustomOption, the extended properties of an object of a built in type that FromJSON reads are exactly these, with their generic values: for each member name the last member of that name in its own JSON object or one before it, provided that neither the object it stands in nor any object from there on, the object itself included, states a built in type with a property of that name, and that no null stands in between. (The spreading is a defect of the code, see C10; this says how far it goes.) Member names are not empty.",
  "all documents, all positions in them, all member names",
  "what reaches an object depends on all objects before it",
  ["stix.go: FromJSON", "stix.go: processObjects", "stix.go: filterOutNonCustom"])
p("An object without type is skipped or the document refused",
  "Without custom parsers and DropCustomOption, a JSON object without a type member contributes nothing to a document that is read, and a document is only read if no type reaches such an object: if the type of a custom object reaches it (no null and no object of a built in type in between), FromJSON does not return a collection. At the end of a document that is read, a well formed object without type changes nothing exactly if no type reaches it.",
  "all documents, all positions in them",
  "what reaches an object depends on all objects before it",
  ["stix.go: FromJSON", "stix.go: processObjects", "stix.go: filterOutNonCustom"])
p("With DropCustomOption, an object without type is skipped unless a built in type reaches it",
  "With DropCustomOption and without custom parsers, a JSON object without a type member (in any case of letters) contributes nothing to a document that is read. At the end of a document that is read, such a well formed object changes nothing exactly if the last type stated before it with no null in between is not a built in type (or there is none); otherwise FromJSON does not return a collection.",
  "all documents, all positions in them",
  "what reaches an object depends on all objects before it",
  ["stix.go: FromJSON", "stix.go: processObjects", "stix.go: DropCustomOption"])
p("Reading a document twice over changes nothing",
  "If FromJSON reads a document, it also reads the document whose objects are those of the first twice over, and Get and AllObjects of the two collections return the same. (Full statement: for all documents. This is false of the code: the second time, the first objects receive extended properties of the last.) True with a null in between, for all documents, options and parsers; without it if all objects have only properties of their type, or if custom content is dropped and all state a type.",
  "all documents, all configurations and parsers",
  "documents are unbounded",
  ["stix.go: FromJSON", "stix.go: processObjects", "stix.go: Collection.Add", "stix.go: Collection.AllObjects"])
p("An object of a document is read as alone exactly if nothing more reaches it",
  "Without custom parsers and DropCustomOption, in a document that FromJSON reads, an object of a built in type that can have extended properties is read exactly as it is read from a document of its own iff every member that reaches it from the objects before it has the name of one of its own members or of a property of its type. (What reaches an object is described in C97.)",
  "all documents, all positions in them",
  "what reaches an object depends on all objects before it",
  ["stix.go: FromJSON", "stix.go: processObjects", "stix.go: filterOutNonCustom"])
p("NoSortOption changes nothing about reading but the order of AllObjects",
  "FromJSON with NoSortOption, wherever it stands among the options, reads a text exactly if it is read without the option, fails with the same error or panics likewise, and then Get and GetAll return the same and AllObjects returns the same objects in some order.",
  "all texts, all lists of options and parsers",
  "texts are unbounded",
  ["stix.go: NoSortOption", "stix.go: FromJSON", "stix.go: Collection.Add", "stix.go: Collection.AllObjects"])
p("AllObjects lists what was read in the order of the document",
  "If FromJSON reads a document without NoSortOption, AllObjects lists each identifier once, in the order in which the identifiers first stand in the document, and for each the object Get returns. If the identifiers of the objects are all different, AllObjects returns exactly the objects of the document in its order.",
  "all documents, all configurations and parsers",
  "documents are unbounded",
  ["stix.go: FromJSON", "stix.go: Collection.Add", "stix.go: Collection.AllObjects"])
if __name__ == "__main__":
    with open("/verif/properties.jsonl","w") as f:
        for e in P: f.write(json.dumps(e, ensure_ascii=False)+"\n")
    print(len(P))
