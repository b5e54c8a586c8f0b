{"id": "C01", "title": "Get returns the last object added under an identifier", "statement": "After any history of Add calls, Get(id) returns the object most recently accepted by Add whose identifier was id, and nil when no such object was accepted.", "quantifier": "all collections options, all finite histories of Add calls with arbitrary objects, all identifiers", "why_tests_cant": "the answer depends on the whole history; a test fixes one history", "anchors": ["stix.go: Collection.Add", "stix.go: Collection.Get", "stix.go: New"]}
{"id": "C02", "title": "AllObjects preserves insertion order", "statement": "On a collection created without NoSortOption, AllObjects returns every accepted identifier exactly once, in the order of its first acceptance, each with the object most recently accepted for it, and never a nil entry.", "quantifier": "all finite histories of Add calls, including re-adding the same identifier any number of times", "why_tests_cant": "order and multiplicity must hold for every interleaving of first-adds and updates", "anchors": ["stix.go: Collection.Add", "stix.go: Collection.AllObjects"]}
{"id": "C03", "title": "NoSortOption only gives up the order", "statement": "On a collection created with NoSortOption, AllObjects returns, in some order that may change between calls, exactly the same multiset of objects as the sorted collection would after the same history.", "quantifier": "all histories of Add calls, all map iteration orders", "why_tests_cant": "Go randomises map iteration; tests see a handful of orders", "anchors": ["stix.go: NoSortOption", "stix.go: Collection.AllObjects", "stix.go: Collection.Add"]}
{"id": "C04", "title": "Add accepts exactly objects with a valid identifier and is otherwise a no-op", "statement": "Add succeeds iff the object's identifier is '<type>--<uuid>' with <type> the object's own type and <uuid> parseable; when it fails every later query on the collection answers as if the call had not happened.", "quantifier": "all objects, all prior histories", "why_tests_cant": "the set of identifiers is infinite and the no-op part quantifies over all later queries", "anchors": ["stix.go: Collection.Add", "data-types.go: HasValidIdentifier"]}
{"id": "C05", "title": "GetAll partitions the collection by type", "statement": "GetAll(t) returns exactly the latest objects whose type is t, each once; the results for different t are disjoint and together they are AllObjects; GetAll(t) is nil iff no object of type t was accepted.", "quantifier": "all histories, all types, all map iteration orders", "why_tests_cant": "partition property over every history", "anchors": ["stix.go: Collection.GetAll"]}
{"id": "C06", "title": "Typed accessors agree with Get", "statement": "Every typed accessor X(id) returns the object Get(id) returns when the identifier's type is X's type, and nil otherwise; every plural accessor returns exactly the objects of its type. No typed accessor panics.", "quantifier": "all histories of objects, all 43 accessor pairs, all identifiers", "why_tests_cant": "41 accessor pairs times all histories; the panic condition depends on which dynamic types were stored", "anchors": ["stix.go: Collection.getObject", "stix.go: Collection.AttackPattern ... Collection.X509Certificates"]}
{"id": "C07", "title": "ToBundle carries the whole collection in order", "statement": "ToBundle succeeds iff every stored object can be encoded; the bundle then has type 'bundle', a valid bundle identifier, and its objects are the encodings of AllObjects in the same order, none dropped or repeated.", "quantifier": "all collections", "why_tests_cant": "quantifies over every collection content", "anchors": ["stix.go: Collection.ToBundle", "bundle.go: NewBundle"]}
{"id": "C08", "title": "Later mutation of an added object cannot corrupt the collection", "statement": "A collection stores references; after any interleaving of Add calls and arbitrary mutations (including of ID and Type) of objects already added, AllObjects still has no nil entry and exactly one entry per identifier accepted, and Get with the identifier used at Add time still finds the object.", "quantifier": "all interleavings of Add and field mutation", "why_tests_cant": "interleavings are unbounded", "anchors": ["stix.go: Collection.Add", "stix.go: Collection.AllObjects"]}
{"id": "C09", "title": "FromJSON is all or nothing", "statement": "FromJSON returns either an error and no collection, or a collection in which every object of the document that has a known type (or any type unless DropCustom) was processed; a single bad object never yields a partially filled collection.", "quantifier": "all JSON documents, all options", "why_tests_cant": "every position and kind of failure", "anchors": ["stix.go: FromJSON", "stix.go: processObjects"]}
{"id": "C10", "title": "Objects in a document are parsed independently", "statement": "The Go object FromJSON builds for the k-th JSON object, including its extended (custom top-level) properties, depends only on that JSON object, not on the objects before it.", "quantifier": "all documents, all k", "why_tests_cant": "requires comparing every prefix of every document", "anchors": ["stix.go: processObjects", "stix.go: filterOutNonCustom"]}
{"id": "C11", "title": "Own fields survive whatever precedes the object", "statement": "The decoded fields (everything except extended properties) of a built-in object in a parsed document are exactly those obtained by decoding that JSON object alone, whatever other objects the document contains.", "quantifier": "all documents, all positions, all built-in types", "why_tests_cant": "all prefixes", "anchors": ["stix.go: processObjects"]}
{"id": "C12", "title": "DropCustom drops exactly the custom content", "statement": "With the drop-custom option, objects of unregistered unknown types are absent from the collection, and no object carries extended properties; objects of known types keep their own fields.", "quantifier": "all documents", "why_tests_cant": "all documents", "anchors": ["stix.go: DropCustomOption", "stix.go: processObjects"]}
{"id": "C13", "title": "JSON objects without a type are skipped", "statement": "A JSON object without a type property contributes nothing to the collection and causes no error, wherever it stands in the document.", "quantifier": "all documents, all positions", "why_tests_cant": "depends on what precedes it", "anchors": ["stix.go: processObjects"]}
{"id": "C14", "title": "Custom parsers are used for exactly their type", "statement": "With a custom parser registered for type t, every object of type t is built by that parser and no other object is; an error from it fails the whole parse.", "quantifier": "all documents, all registered parsers", "why_tests_cant": "parsers are arbitrary functions", "anchors": ["stix.go: CustomObjectOption", "stix.go: processObjects"]}
{"id": "C15", "title": "FromJSON never panics", "statement": "FromJSON on any byte string returns a collection or an error; it does not panic.", "quantifier": "all JSON documents, no custom parser", "why_tests_cant": "input space is infinite", "anchors": ["stix.go: FromJSON", "stix.go: processObjects", "data-types.go: Timestamp.UnmarshalJSON", "artifact.go: EncryptionAlgorithm.UnmarshalJSON", "opinion.go: OpinionValue.UnmarshalJSON", "extension.go: CustomObject.GetID"]}
{"id": "C16", "title": "Bundle form and array form are equivalent", "statement": "FromJSON of a bundle whose objects are L gives the same result as FromJSON of the bare JSON array L, for every option set.", "quantifier": "all lists of JSON objects, all options", "why_tests_cant": "all lists", "anchors": ["stix.go: FromJSON"]}
{"id": "C17", "title": "A collection survives ToBundle and FromJSON", "statement": "For a collection whose objects were built by the API, parsing the JSON of ToBundle gives a collection with the same identifiers in the same order and objects equal to the originals up to millisecond timestamps.", "quantifier": "all collections of encodable objects", "why_tests_cant": "all contents and sizes", "anchors": ["stix.go: Collection.ToBundle", "stix.go: FromJSON", "bundle.go: NewBundle"]}
{"id": "C18", "title": "Parsed objects are filed under the type they were parsed as", "statement": "After FromJSON without custom parsers, every object in the collection has the Go type that belongs to its STIX type, so that no typed accessor panics on parsed data.", "quantifier": "all documents", "why_tests_cant": "adversarial documents", "anchors": ["stix.go: processObjects", "stix.go: Collection.Add"]}
{"id": "C19", "title": "Encoding fails exactly when a required property is missing", "statement": "Encoding an object built on the STIX base types fails iff some property that is required for its type (no omitempty) is empty, or a float contained in it or in its extended properties is NaN or infinite; it never panics; otherwise each non-empty property appears once under its STIX name and each empty optional non-boolean property is absent.", "quantifier": "all values of all object types", "why_tests_cant": "all field combinations", "anchors": ["stix.go: objectToMap", "stix.go: valueToMap", "object.go: marshalToJSONHelper"]}
{"id": "C20", "title": "Object round trip", "statement": "Decoding the encoding of any encodable object of a built-in type gives back the same object up to a stated normalisation: timestamps are truncated to milliseconds, undefined enumeration members become the zero value, empty optional nested containers become nil, contents of interface type come back as generic JSON values, and extended properties stay out of the object; an object that is already in this normal form comes back exactly equal.", "quantifier": "all object types of the library that encode through the common helper, all field values with valid UTF-8 strings", "why_tests_cant": "all values", "anchors": ["stix.go: valueToMap", "object.go: STIXDomainObject", "object.go: STIXCyberObservableObject", "object.go: STIXRelationshipObject"]}
{"id": "C21", "title": "Extended properties round trip and override", "statement": "Extended top-level properties set on an object appear in its encoding next to its own properties, and parsing that encoding (alone) yields the same extended properties, provided their names are not empty and do not collide with the type's own property names, compared without case.", "quantifier": "all types, all extended property maps", "why_tests_cant": "all maps", "anchors": ["stix.go: valueToMap", "stix.go: filterOutNonCustom", "object.go: addCustomProperties"]}
{"id": "C22", "title": "Parsed extensions have the documented Go type", "statement": "After parsing, the value under each predefined extension key has that extension's Go type and every other key holds a custom object, so the extension accessors on parsed File, NetworkTraffic, Process and UserAccount objects never panic.", "quantifier": "all JSON extension dictionaries", "why_tests_cant": "all dictionaries", "anchors": ["extension.go: Extensions.UnmarshalJSON", "file.go: File.ArchiveExtension", "network.go: NetworkTraffic.TCPExtension", "process.go: Process.WindowsProcessExtension", "user.go: UserAccount.UNIXAccountExtension"]}
{"id": "C23", "title": "Enumerations round trip", "statement": "For each of the ten JSON enumerations, decoding the encoding of every defined value gives that value; distinct defined values have distinct names; an unknown name decodes without error to the zero value; each constant stands for the term of the STIX 2.1 enumeration, there are no others, and the properties with enumerated values are those of the standard.", "quantifier": "all enumerations, all values, all JSON strings", "why_tests_cant": "all strings", "anchors": ["artifact.go: EncryptionAlgorithm", "opinion.go: OpinionValue", "network.go: SocketAddressFamily", "network.go: SocketType", "process.go: WindowsIntegrityLevel", "process.go: WindowsServiceStartType", "process.go: WindowsServiceType", "process.go: WindowsServiceStatusType", "regkey.go: RegistryDataType", "extension.go: ExtensionType"]}
{"id": "C24", "title": "Timestamp round trip", "statement": "For every instant between year 0 and 9999 and every zone, encoding then decoding a Timestamp gives the instant truncated to milliseconds, in UTC; doing it twice changes nothing more; order is preserved weakly.", "quantifier": "all instants at nanosecond resolution in years 0..9999", "why_tests_cant": "calendar arithmetic over 3.6 million days", "anchors": ["data-types.go: Timestamp.String", "data-types.go: Timestamp.MarshalJSON", "data-types.go: Timestamp.UnmarshalJSON"]}
{"id": "C25", "title": "Binary round trip", "statement": "Decoding the encoding of any Binary value gives back the same bytes.", "quantifier": "all byte strings", "why_tests_cant": "all lengths", "anchors": ["data-types.go: Binary.MarshalJSON", "data-types.go: Binary.UnmarshalJSON", "data-types.go: Binary.String"]}
{"id": "C26", "title": "Fresh identifiers are valid identifiers of their type", "statement": "NewIdentifier(t) for every built-in type t (and every nonempty custom type free of '--' that does not end in '-') is a valid identifier, its type part is t, and its UUID is version 4.", "quantifier": "all types, all random sources", "why_tests_cant": "all random bytes", "anchors": ["data-types.go: NewIdentifier", "data-types.go: IsValidIdentifier"]}
{"id": "C27", "title": "Observable identifiers are deterministic version 5 identifiers", "statement": "NewObservableIdentifier(v, t) depends only on v and t, is a valid identifier of type t and its UUID has version 5 and the RFC 4122 variant.", "quantifier": "all values, all types", "why_tests_cant": "all values", "anchors": ["data-types.go: NewObservableIdentifier"]}
{"id": "C28", "title": "Single-value observables: equal identifiers mean equal values", "statement": "For AutonomousSystem, Directory, DomainName, EmailAddress, IPv4Address, IPv6Address, MACAddress, Mutex and URL, two objects get the same identifier iff their identifying values are equal, unless SHA-1 truncated to a UUID collides on two different byte strings (which the theorem exhibits).", "quantifier": "all values, all option lists", "why_tests_cant": "all pairs of values", "anchors": ["as.go: NewAutonomousSystem", "directory.go: NewDirectory", "dns.go: NewDomainName", "email.go: NewEmailAddress", "ip.go: NewIPv4Address", "ip.go: NewIPv6Address", "mac.go: NewMACAddress", "mutex.go: NewMutex", "url.go: NewURL"]}
{"id": "C29", "title": "Multi-property observables: equal identifiers mean equal contributing properties", "statement": "For Artifact, EmailMessage, File, NetworkTraffic, RegistryKey, Software, UserAccount and X509Certificate, two objects get the same identifier only if all their ID contributing properties are equal (absent a SHA-1 collision).", "quantifier": "all pairs of objects", "why_tests_cant": "needs pairs over infinite value spaces", "anchors": ["artifact.go: NewArtifact", "email.go: NewEmailMessage", "file.go: NewFile", "network.go: NewNetworkTraffic", "regkey.go: NewRegistryKey", "software.go: NewSoftware", "user.go: NewUserAccount", "x509.go: NewX509Certificate"]}
{"id": "C30", "title": "Observable identifiers ignore non-contributing options", "statement": "The identifier of a constructed cyber-observable does not depend on options that set properties which are not ID contributing, nor on the order of options that set different properties.", "quantifier": "all constructors, all option lists, all permutations", "why_tests_cant": "all option lists", "anchors": ["option.go: applyOptions", "option.go: setField"]}
{"id": "C31", "title": "Type test on identifiers is exact", "statement": "id.ForType(t) holds iff the type part of id is t; ForTypes(ts) iff the type part is one of ts.", "quantifier": "all identifiers, all types", "why_tests_cant": "all identifiers", "anchors": ["data-types.go: Identifier.ForType", "data-types.go: Identifier.ForTypes"]}
{"id": "C32", "title": "Type test is exact on built-in types with one exception", "statement": "For identifiers whose type part is a built-in type, ForType(t) with t built-in is exact except for t = malware on malware-analysis identifiers.", "quantifier": "all pairs of built-in types, all UUID parts", "why_tests_cant": "pairs of types times all suffixes", "anchors": ["data-types.go: Identifier.ForType", "data-types.go: AllTypes"]}
{"id": "C33", "title": "Everything a constructor returns can be added", "statement": "Whenever a constructor returns a nil error, Collection.Add accepts the object.", "quantifier": "all constructors, all arguments, all option lists, all random sources", "why_tests_cant": "all argument values", "anchors": ["stix.go: Collection.Add", "object.go: newSTIXDomainObject", "object.go: newSTIXCyberObservableObject", "object.go: newSTIXRelationshipObject"]}
{"id": "C34", "title": "Hash contribution priority", "statement": "The hash used for an identifier is the MD5 if present, else SHA-1, else SHA-256, else SHA-512, and empty if none of them is present; other algorithms never influence it.", "quantifier": "all hash maps", "why_tests_cant": "all maps", "anchors": ["data-types.go: Hashes.getIDContribution"]}
{"id": "C35", "title": "An option changes exactly its property", "statement": "Applying an option that succeeds sets the named property to the given value and leaves every other property of the object untouched; an option that fails leaves the object untouched.", "quantifier": "all options, all object types, all object states, all values", "why_tests_cant": "117 options times 42 types times all states", "anchors": ["option.go: setField", "option.go: getFieldFromBaseStruct"]}
{"id": "C36", "title": "No option changes type or identifier", "statement": "No exported option can change an object's Type or ID.", "quantifier": "all options, all types, all values, all option lists", "why_tests_cant": "all option lists", "anchors": ["option.go"]}
{"id": "C37", "title": "Documented option applicability", "statement": "Every option succeeds on every object type its documentation lists.", "quantifier": "all options, all documented types, all values", "why_tests_cant": "the tests cover a few per option", "anchors": ["option.go: doc comments", "option.go: setField"]}
{"id": "C38", "title": "Options on different properties commute; on the same property the last wins", "statement": "Swapping two adjacent options that target different properties does not change the resulting object; when two options target the same property, the result is that of the later one.", "quantifier": "all option lists, all types, all states", "why_tests_cant": "all lists", "anchors": ["option.go: applyOptions", "option.go: setField"]}
{"id": "C39", "title": "Options never panic", "statement": "Applying any option to any STIX object returns nil or an error but does not panic.", "quantifier": "all options, all types", "why_tests_cant": "product of options and types", "anchors": ["option.go: setField", "option.go: OptionContent", "option.go: OptionExtension"]}
{"id": "C40", "title": "A failing option is reported", "statement": "If any option in the list fails, the constructor returns an error; options after it are not applied; nil options are ignored.", "quantifier": "all constructors, all option lists", "why_tests_cant": "all lists", "anchors": ["option.go: applyOptions"]}
{"id": "C41", "title": "Constructors validate their required arguments", "statement": "Each constructor called without options fails iff one of its required arguments is missing or out of range (table args_bad in ConstrSpec.v, from the documentation) or it documents that at least one property must be given by an option; otherwise every property is the argument given for it, the type, the spec version, an equal created and modified timestamp (SDO/SRO), or unset.", "quantifier": "all constructors, all argument values", "why_tests_cant": "all values", "anchors": ["New* in all object files"]}
{"id": "C42", "title": "Value range validation", "statement": "A Sighting returned without error has count in 0..999999999 and first_seen not after last_seen; a Campaign returned without error has first_seen not after last_seen; a Location has latitude in -90..90 and longitude in -180..180, and a precision only with coordinates; an Artifact has exactly one of payload and url, and url only with hashes; a family Malware has a name.", "quantifier": "all arguments and option lists", "why_tests_cant": "all numeric values and option lists", "anchors": ["sighting.go: NewSighting", "campaign.go: NewCampaign", "location.go: NewLocation", "artifact.go: NewArtifact", "malware.go: NewMalware"]}
{"id": "C43", "title": "Whatever a constructor returns can be encoded", "statement": "Whenever a constructor returns a nil error, the object can be encoded to JSON.", "quantifier": "all constructors, all arguments, all option lists", "why_tests_cant": "all values", "anchors": ["identity.go: NewIdentity", "note.go: NewNote", "opinion.go: NewOpinion", "stix.go: valueToMap"]}
{"id": "C44", "title": "Constructor argument checks imply encodability except for listed constructors", "statement": "Without options, every successful constructor except NewIdentity, NewNote and NewOpinion returns an encodable object, provided that no argument contains NaN or an infinity; NewIdentity never does, NewNote does iff the content is not empty, and NewOpinion iff the value is not zero.", "quantifier": "all constructors, all arguments", "why_tests_cant": "all values", "anchors": ["New* in all object files", "stix.go: valueToMap"]}
{"id": "C45", "title": "Relationship helpers build the relationship they are named after", "statement": "For every Add<Relation> helper, a successful call returns a relationship whose type is the helper's relation, whose source is the receiver and whose target is the given identifier.", "quantifier": "all helpers, all receivers, all targets", "why_tests_cant": "all targets", "anchors": ["attack.go: AttackPattern.AddUses", "relationship.go: NewRelationship", "campaign.go", "malware.go", "threat-actor.go", "tool.go"]}
{"id": "C46", "title": "Relationship helpers accept exactly the allowed target types", "statement": "Every Add<Relation> helper succeeds iff the target is a valid identifier whose type is one of the documented target types.", "quantifier": "all helpers, all target identifiers", "why_tests_cant": "all identifiers", "anchors": ["data-types.go: Identifier.ForTypes", "malware.go: Malware.AddAuthoredBy", "tool.go"]}
{"id": "C47", "title": "Common relationships", "statement": "AddDerivedFrom, AddDuplicateOf and AddRelatedTo return a relationship with the corresponding type, source the receiver, target the argument, and fail iff the receiver's or the given identifier is empty.", "quantifier": "all objects, all targets", "why_tests_cant": "all identifiers", "anchors": ["object.go: AddDerivedFrom", "object.go: AddDuplicateOf", "object.go: AddRelatedTo"]}
{"id": "C48", "title": "Canonicalization computes the canonical text of the value", "statement": "For every JSON text of an object or array value with pairwise distinct member names, the canonicalizer succeeds and returns the RFC 8785 canonical text of that value: no whitespace, members sorted by UTF-16 code units, minimal escapes, ES6 numbers.", "quantifier": "all JSON values, all ways of writing them (whitespace, escapes, number spelling, member order)", "why_tests_cant": "infinite grammar", "anchors": ["internal/jsoncanonicalizer/jsoncanonicalizer.go: Transform"]}
{"id": "C49", "title": "Canonicalization is idempotent", "statement": "Whatever the input, a text the canonicalizer returns is one it returns unchanged; for I-JSON input it is I-JSON again and denotes the same value.", "quantifier": "all byte strings the canonicalizer accepts", "why_tests_cant": "all texts", "anchors": ["internal/jsoncanonicalizer/jsoncanonicalizer.go: Transform"]}
{"id": "C50", "title": "Canonicalization ignores member order and whitespace", "statement": "Two texts of the same JSON value up to member order, whitespace, escape and number spelling have the same canonical text, and texts of different values have different ones.", "quantifier": "all pairs of texts", "why_tests_cant": "all pairs", "anchors": ["internal/jsoncanonicalizer/jsoncanonicalizer.go: Transform"]}
{"id": "C51", "title": "Duplicate members are rejected", "statement": "A JSON object with two members whose decoded names are equal is rejected wherever it occurs.", "quantifier": "all objects, all positions of the duplicates", "why_tests_cant": "all positions", "anchors": ["internal/jsoncanonicalizer/jsoncanonicalizer.go: Transform"]}
{"id": "C52", "title": "Numbers are written as ECMAScript writes them", "statement": "For every finite double the number text equals ECMAScript's Number::toString of it.", "quantifier": "all finite doubles given by their shortest decimal digits and exponent", "why_tests_cant": "2^64 doubles", "anchors": ["internal/jsoncanonicalizer/es6numfmt.go: NumberToJSON"]}
{"id": "C53", "title": "Canonicalizer terminates and never reads out of bounds", "statement": "On every byte string the canonicalizer terminates with a result or an error without indexing outside the input.", "quantifier": "all byte strings", "why_tests_cant": "all byte strings", "anchors": ["internal/jsoncanonicalizer/jsoncanonicalizer.go: Transform"]}
{"id": "C54", "title": "Custom object get/set laws", "statement": "On a CustomObject, Get after Set of the same key returns the value set, other keys are unaffected, and the typed getters return the value when it has the requested type and the zero value when the key is absent, without panicking.", "quantifier": "all custom objects, keys and values", "why_tests_cant": "all maps", "anchors": ["extension.go: CustomObject.Get", "extension.go: CustomObject.Set", "extension.go: CustomObject.GetAsString", "extension.go: CustomObject.GetAsStringSlice", "extension.go: CustomObject.GetAsNumber"]}
{"id": "C55", "title": "External references and kill chain phases validate", "statement": "NewExternalReference fails iff the name is empty or all of description, url and external id are empty; NewKillChainPhase fails iff one of its arguments is empty; on success they carry the arguments.", "quantifier": "all arguments", "why_tests_cant": "all strings", "anchors": ["data-types.go: NewExternalReference", "data-types.go: NewKillChainPhase"]}
{"id": "C56", "title": "Predefined TLP markings are well formed", "statement": "Each predefined TLP marking can be added to a collection, encodes, and decodes to itself.", "quantifier": "the four constants", "why_tests_cant": "settled by evaluation of the model, listed for completeness of the collection round trip", "anchors": ["meta.go: TLPWhite", "meta.go: TLPGreen", "meta.go: TLPAmber", "meta.go: TLPRed"]}
{"id": "C57", "title": "Custom properties are kept and not invented", "statement": "Without custom parsers and the drop-custom option, every member of a parsed object that is not a property of its type becomes an extended property of the Go object with the generic value of that member, and every extended property is a member of that JSON object or of one before it in the document.", "quantifier": "all documents and all objects in them", "why_tests_cant": "all member names, values and documents", "anchors": ["stix.go: processObjects", "stix.go: filterOutNonCustom", "object.go: addCustomProperties"]}
{"id": "C58", "title": "Unpaired surrogate escapes are rejected by the canonicalizer", "statement": "A string literal with a \\u escape of a surrogate that is not one half of a pair is rejected, not silently replaced.", "quantifier": "all string literals, all positions of the escape", "why_tests_cant": "all strings and escapes", "anchors": ["internal/jsoncanonicalizer/jsoncanonicalizer.go: Transform"]}
{"id": "C59", "title": "Constructors do not panic", "statement": "No constructor panics, whatever its arguments and options.", "quantifier": "all constructors, all arguments, all option lists", "why_tests_cant": "all values and option lists", "anchors": ["note.go: NewNote", "regkey.go: NewRegistryKey", "option.go: applyOptions"]}
{"id": "C60", "title": "Encoded objects use the standard's property names and value kinds", "statement": "An encoded object of a built-in type has only members named in the STIX 2.1 property table of its type or added as extended properties, each with the kind of JSON value the table gives, every property the table marks as always present is there, no name occurs twice; the library has exactly the tabled types; predefined extensions have the standard's keys and members.", "quantifier": "all built-in object types, all storable values, all extended properties", "why_tests_cant": "all field values of all types; tests compare the library with itself", "anchors": ["object.go: marshalToJSONHelper", "extension.go: Extensions", "stix.go: STIXType"]}
{"id": "C61", "title": "Timestamps are written and read as the instants they denote", "statement": "Every instant of the years 0 to 9999 is written as its UTC date and time with milliseconds, the rest dropped; a text is read iff it is a valid Gregorian date, time of day, optional fraction and zone in RFC 3339 form (with a one-digit hour or a comma also taken), and it is read as the instant it denotes including the zone offset.", "quantifier": "all instants of the years 0 to 9999, all byte strings between quotes", "why_tests_cant": "all dates, offsets, fraction lengths and texts", "anchors": ["data-types.go: Timestamp.String", "data-types.go: Timestamp.MarshalJSON", "data-types.go: Timestamp.UnmarshalJSON"]}
{"id": "C62", "title": "Binary properties are RFC 4648 base64", "statement": "Binary values are written as the padded base64 text of their bytes with zero spare bits; a JSON value is read into a binary property iff it is null, an array of byte-sized integers, or a string that without its line breaks is base64 text, and it is read as the bytes it carries; anything else is an error.", "quantifier": "all byte strings, all JSON texts", "why_tests_cant": "all byte strings and texts", "anchors": ["data-types.go: Binary.MarshalJSON", "data-types.go: Binary.UnmarshalJSON"]}
{"id": "C63", "title": "A read object says what its JSON says", "statement": "When reading an object of a built-in type succeeds, every property holds the value its JSON member stands for: the string with its escapes resolved, the integer (never a wrapped, cut or zeroed one), the rounded decimal number, the instant, the bytes, the enumeration member, the list element by element, the map key by key, the nested object property by property; a property without member is empty. Conversely a text whose members all stand for something is read without error. FromJSON fills the fields of its objects so, and what is encoded stands for the object.", "quantifier": "all built-in types, all JSON texts, all roundings, all FromJSON documents", "why_tests_cant": "all values and nestings of JSON texts", "anchors": ["stix.go: FromJSON", "object.go: json.Unmarshal uses", "data-types.go: UnmarshalJSON methods", "extension.go: Extensions.UnmarshalJSON"]}
{"id": "C64", "title": "The getters of a read object report its JSON members", "statement": "For every object FromJSON returns, GetID, GetType, GetCreated and GetModified report what the members id, type, created and modified say (nil for a time that is not stated, always nil for observables and for the modification time of markings), GetExtendedTopLevelProperties reports the extended properties or nil, and none of them panics.", "quantifier": "all documents FromJSON accepts, all objects in them, built-in and custom", "why_tests_cant": "all documents and objects", "anchors": ["object.go: STIXDomainObject.GetCreated", "object.go: STIXCyberObservableObject.GetCreated", "meta.go: MarkingDefinition.GetModified", "extension.go: ExtensionDefinition.GetCreated", "extension.go: CustomObject.GetCreated"]}
{"id": "C65", "title": "Strings are read and written as Unicode text", "statement": "A JSON string is read into a string property iff its text is a string of RFC 8259 whose escapes are valid, and the property then holds the UTF-8 encoding of exactly the characters the text stands for (surrogate pairs combined, unpaired ones and stray bytes as U+FFFD); a string is written as text standing for its characters, with control characters and the characters special in HTML and JavaScript escaped.", "quantifier": "all byte strings, all JSON texts", "why_tests_cant": "all characters, escapes and byte sequences", "anchors": ["object.go: json.Unmarshal uses", "object.go: marshalToJSONHelper"]}
{"id": "C66", "title": "Only JSON is read and only JSON is written", "statement": "FromJSON fails on every input that is not a JSON text of RFC 8259 and does not panic on it; a text denotes one value; every encoded object and every bundle of a collection is a JSON text, valid UTF-8 without characters special in HTML, whatever bytes the strings of the objects hold.", "quantifier": "all byte strings; all types and values; all Add sequences", "why_tests_cant": "all inputs and objects", "anchors": ["stix.go: FromJSON", "object.go: marshalToJSONHelper", "bundle.go: NewBundle"]}
{"id": "C67", "title": "The canonicalizer accepts exactly its language", "statement": "The canonicalizer succeeds on an input iff the input is the text of an array or object in its grammar (JSON structure; strings with valid escapes, a surrogate escape followed by another escape; numbers as strconv.ParseFloat takes them) in which no object has two names equal as UTF-16, and then it returns the canonical text of that value; on every other input it returns an error.", "quantifier": "all byte strings, all number parsers", "why_tests_cant": "all inputs, malformed ones included", "anchors": ["internal/jsoncanonicalizer/jsoncanonicalizer.go: Transform"]}
{"id": "C68", "title": "The canonicalizer rejects what is not JSON", "statement": "Every input the canonicalizer accepts is a JSON text of RFC 8259.", "quantifier": "all byte strings", "why_tests_cant": "all inputs, malformed ones included", "anchors": ["internal/jsoncanonicalizer/jsoncanonicalizer.go: Transform"]}
{"id": "C69", "title": "The result of FromJSON is determined value by value", "statement": "FromJSON returns a collection iff its input is a document whose values, read in order, each yield nothing or an object with a valid identifier, and then the collection holds exactly those objects; it panics iff some value makes it panic after the values before it were read; on everything else it returns an error. What a value yields depends only on the value, the options and the member names left over from the values before it.", "quantifier": "all byte strings, all options, all custom parsers", "why_tests_cant": "all documents, including duplicate names, missing types, nulls and custom types in any order", "anchors": ["stix.go: FromJSON", "stix.go: processObjects", "stix.go: filterOutNonCustom"]}
{"id": "C70", "title": "Numbers are read and written as IEEE 754 doubles", "statement": "A JSON number of fewer than 9600 bytes, with an exponent of any size, is read as the double nearest to it (ties to even), and is an error iff it is out of range; every double, of either sign, is written as the JSON number of its shortest decimal, nearest to the double among the shortest, and reading this text gives the same double. Range checks on coordinates compare the doubles, and canonical numbers are the ECMAScript texts of the shortest decimals of the nearest doubles.", "quantifier": "all number texts, all doubles", "why_tests_cant": "2^64 doubles and unboundedly many decimals, ties and subnormals included", "anchors": ["object.go: marshalToJSONHelper", "location.go: NewLocation", "internal/jsoncanonicalizer/jsoncanonicalizer.go: Transform", "internal/jsoncanonicalizer/es6numfmt.go: NumberToJSON"]}
{"id": "C71", "title": "White space and the order of members do not change what is read", "statement": "Without custom parsers, two texts of the same JSON value are read by FromJSON with the same result. If the texts differ in the order of the members of objects (and no object has two names that the decoder identifies), one is read as a collection iff the other is read as the same collection; the same holds for decoding a single object. Whether a text that is not read gives an error or a panic can depend on the order.", "quantifier": "all JSON texts, all reorderings at every depth, all options without custom parsers", "why_tests_cant": "all permutations of all objects in all documents", "anchors": ["stix.go: FromJSON", "stix.go: processObjects"]}
{"id": "C72", "title": "A torn document is never read as a complete one", "statement": "If FromJSON accepts a document, it rejects every proper prefix of it except those that only lack trailing white space, and every extension of it with something other than white space; the same holds for decoding a single object.", "quantifier": "all documents, all cut points, all appended bytes", "why_tests_cant": "every crash point of a writer, for every document", "anchors": ["stix.go: FromJSON", "bundle.go: NewBundle"]}
{"id": "C73", "title": "Collections are merged by adding the objects of one to the other", "statement": "Adding all objects that AllObjects returns for a source collection to a target collection succeeds for each; afterwards an identifier held by the source yields the source's object and every other identifier what the target held; with order kept, the identifiers of the target come first, in their order, then the new ones in the order of the source. Into an empty collection this gives a copy: the same objects under Get, AllObjects and the typed accessors.", "quantifier": "all pairs of collections reached by Add calls, all options", "why_tests_cant": "all histories of two collections", "anchors": ["stix.go: Collection.Add", "stix.go: Collection.AllObjects", "stix.go: Collection.Get"]}
{"id": "C74", "title": "One round trip settles an object", "statement": "What is read back from the encoding of an object is read back unchanged from its own encoding, whenever it can be encoded; this holds for every object built in Go and for everything read from any JSON text (with years 0 to 9999 and no null extension), and for the collections read from bundles. It need not be encodable: an undefined member of an enumeration is lost in the first round trip.", "quantifier": "all built-in types and well formed values, all JSON texts, all collections reached by Add calls", "why_tests_cant": "all chains of encoders and decoders", "anchors": ["object.go: marshalToJSONHelper", "stix.go: FromJSON", "stix.go: Collection.ToBundle"]}
{"id": "C75", "title": "The errors of the API say what is wrong", "statement": "A constructor called without a required argument returns ErrPropertyMissing (domain and meta objects) or ErrInvalidParameter (observables and extension definitions), a location with impossible coordinates ErrInvalidProperty, and process, registry key, user account and X.509 certificate without options ErrPropertyMissing; properties that do not go together after the options give the error listed for the type. Every error of a constructor has one of these causes or comes from an option, and options never fail with one of the three errors of the API. A relationship helper returns ErrInvalidParameter only for a target that it accepts under no options. When an object with an empty required property is encoded, the error names such a property.", "quantifier": "all constructors, arguments, option lists, helpers, receivers, targets; all values of the object types", "why_tests_cant": "the product of arguments, options and checks is infinite; tests only assert that some error is returned", "anchors": ["error.go: ErrPropertyMissing", "error.go: ErrInvalidProperty", "error.go: ErrInvalidParameter", "location.go: NewLocation", "artifact.go: NewArtifact", "sighting.go: NewSighting", "option.go: setField", "object.go: marshalToJSONHelper"]}
{"id": "C76", "title": "Constructed objects survive the way through a collection, a bundle and FromJSON", "statement": "If constructors are called with arguments and options whose values JSON can carry, and the objects have their required properties, then every object can be added to a collection, the collection can be written as a bundle, FromJSON reads its text, and every identifier yields the last object constructed under it, with its properties in normal form (unchanged if they were); no other identifier yields anything, and the order is that of construction. The getters of a constructed object report its type, a valid identifier of this type, the time of construction or the time set by an option, and no extended properties.", "quantifier": "all lists of constructor calls with all arguments, options, random bytes and times", "why_tests_cant": "all programs that construct, store, write and read objects", "anchors": ["stix.go: Collection.Add", "stix.go: Collection.ToBundle", "stix.go: FromJSON", "object.go: newSTIXDomainObject", "bundle.go: NewBundle"]}
{"id": "C77", "title": "The order in which Go visits its maps changes no result", "statement": "Go visits maps in an unspecified order: the extensions of an object being read, its extended properties when they are copied and when they are written, the tables of the enumerations. If FromJSON or json.Unmarshal succeeds on some bytes in one execution it succeeds in all of them with the same result, and an object is always encoded to the same bytes. (Full statement: the outcome is the same in all executions. This is false of the code: the same bytes can give an error in one execution and a panic in the next.)", "quantifier": "all byte strings, options and types; all objects; all visiting orders at every loop of an execution", "why_tests_cant": "the order is chosen anew by the runtime in every execution", "anchors": ["extension.go: Extensions.UnmarshalJSON", "stix.go: processObjects", "stix.go: valueToMap", "artifact.go: EncryptionAlgorithm.UnmarshalJSON", "network.go: SocketAddressFamily.UnmarshalJSON"]}
{"id": "C78", "title": "Deep documents are rejected, and nothing else changes", "statement": "JSON nested to at most 10000 levels is read by FromJSON and json.Unmarshal as described by the other properties, deeper JSON is an error of both. Values of at most 10000 levels are encoded as described there, and what a MarshalJSON method of the library returns is never too deep to be read. If no object of a collection has more than 9998 levels its bundle is made, written and read as described there. (Full statement: every bundle that can be written can be read. This is false of the code: the two levels a bundle adds are not counted when it is written.)", "quantifier": "all JSON texts of every depth, all values, all collections reached by Add calls", "why_tests_cant": "depth is unbounded; no test goes near the limit", "anchors": ["stix.go: FromJSON", "stix.go: Collection.ToBundle", "bundle.go: NewBundle", "object.go: marshalToJSONHelper"]}
{"id": "C79", "title": "Identifiers of observables are those other implementations compute", "statement": "The identifier that NewObservableIdentifier makes for a value and a type is the type and the name-based UUID of the value as defined by RFC 4122, section 4.3, in the name space of the STIX standard, with SHA-1 as defined by FIPS 180-4; no other UUID satisfies the definition.", "quantifier": "all values (up to the 2^64 bits for which SHA-1 is defined), all types", "why_tests_cant": "messages of every length, with every padding and number of blocks", "anchors": ["data-types.go: NewObservableIdentifier", "data-types.go: CyberObservableNamespace"]}
{"id": "C80", "title": "The identifier of an observable is the standard's recipe applied to its contributing properties", "statement": "The identifier of an observable made by a constructor is its type and the version 5 UUID, in the name space of the standard, of the RFC 8785 text of a JSON array: the values of the contributing properties that are set, in a fixed order, a time in UTC to the millisecond, bytes in base64, of the hashes only the preferred one, of the extensions their canonical form; for observables with one contributing property it is the argument of the constructor. This holds if the text properties contain no quotation mark, backslash or control character and the required properties are set. (Full statement: it is the UUID the standard prescribes. This is false of the code: the standard takes an object of names and values, not an array of values.)", "quantifier": "all constructors of observables but NewProcess, all arguments and options, all values of the contributing properties", "why_tests_cant": "all combinations of set and unset properties of every length", "anchors": ["data-types.go: NewObservableIdentifier", "data-types.go: Hashes.getIDContribution", "network.go: NewNetworkTraffic", "regkey.go: NewRegistryKey", "file.go: NewFile", "software.go: NewSoftware", "object.go: canonicalizeExtensions"]}
{"id": "C81", "title": "What the library writes is I-JSON, and its own canonicalizer takes it", "statement": "The JSON of an object, and the bundle of a collection after any sequence of Add calls, is I-JSON text (RFC 7493): UTF-8, surrogates in pairs, numbers that are doubles, whatever bytes the strings of the objects hold. If the names of the maps in the objects are UTF-8, no JSON object in the text, at any depth, has a name twice, and the canonicalizer accepts the text and gives its RFC 8785 form. Everything that was read from a document is of this kind: the bundle of what FromJSON returned always has a canonical form. (Full statement: without the condition on names. This is false of the code: two names that are no UTF-8 are written alike.)", "quantifier": "all objects, extended properties, extensions and nested maps, all histories of Add, all documents read", "why_tests_cant": "values of every depth and size with all bytes", "anchors": ["object.go: marshalToJSONHelper", "stix.go: valueToMap", "stix.go: FromJSON", "stix.go: Collection.ToBundle", "bundle.go: Bundle", "internal/jsoncanonicalizer/jsoncanonicalizer.go: Transform"]}
{"id": "C82", "title": "A document that was read, written and read does not change any more", "statement": "Read any document with FromJSON, write the collection with ToBundle and read that bundle: from then on writing and reading gives the same collection, with the same objects, extended properties and custom objects in the same order, although FromJSON lets extended properties spread to later objects and rounds times and numbers. The same for any collection made with Add. Provided there are no parsers for custom types, times have years from 0 to 9999, each object has the Go type of its type property and no extended property has the name of an own property in another case (without this it is false of the code).", "quantifier": "all documents, all collections after any history of Add, all further rounds of writing and reading", "why_tests_cant": "documents of every size and all ways properties can spread", "anchors": ["stix.go: FromJSON", "stix.go: processObjects", "stix.go: Collection.ToBundle", "object.go: marshalToJSONHelper", "extension.go: CustomObject"]}
{"id": "C83", "title": "Rewriting a document reproduces its text", "statement": "An object that was read with json.Unmarshal and written with json.Marshal is written as exactly the same text when that text is read again. The same for whole documents: read one with FromJSON, write it with ToBundle, read the bundle, and ToBundle succeeds and gives the same text of every object in the same order, although extended properties spread to later objects while reading; only the new random identifier of the bundle differs. For documents without null values in the list of objects and without repeated identifiers (with a null it is false of the code), without parsers for custom types, with times of the years 0 to 9999, objects of the Go type of their type property and no extended property with the name of an own property in another case.", "quantifier": "all JSON texts of objects of every type, all such documents, with and without custom data", "why_tests_cant": "all texts in and out of normal form, documents of every size and all ways properties can spread", "anchors": ["stix.go: FromJSON", "stix.go: processObjects", "stix.go: Collection.ToBundle", "object.go: marshalToJSONHelper", "bundle.go: NewBundle"]}
{"id": "C84", "title": "Discarded list elements do not come back", "statement": "When an object of a JSON text names a list property repeatedly, elements of an earlier list that a later, shorter list discarded never show up in what FromJSON and json.Unmarshal return. (False of the code.) True when no object of the text names a property twice, ignoring case. And for every text, with any repetitions: the calls succeed, fail or panic as if discarded elements were gone, the collection has the same identifiers, types and order, and the objects are the same outside of lists, with lists of the same lengths.", "quantifier": "all texts, all options and parsers, all Go types and prior contents of the variable read into", "why_tests_cant": "the effect needs three lists of particular lengths; every nesting of repeated members has to be considered", "anchors": ["stix.go: FromJSON", "stix.go: processObjects", "extension.go: Extensions.UnmarshalJSON", "object.go: STIXDomainObject", "data-types.go: ExternalReference"]}
{"id": "C85", "title": "Objects share no memory unless the caller shares it", "statement": "A constructor call changes nothing that exists: not its arguments, not any object made before, also when it fails. An object holds the very references passed for its properties, not copies, so what the caller changes there later changes in the object. A change made in place through a reference that was not passed in by the caller shows in one property of one object. (Full statement, false of the code: NewSighting, NewLanguageContent and NewExtensionDefinition put one pointer into both Created and Modified, so a change of one time in place changes the other.) True for all other properties and types, and for histories of any length.", "quantifier": "all histories of constructor calls with all arguments and options, field assignments and changes through references, with any sharing among the caller's own references", "why_tests_cant": "every pair of properties of every pair of objects after every history", "anchors": ["sighting.go: NewSighting", "meta.go: NewLanguageContent", "extension.go: NewExtensionDefinition", "object.go: newSTIXDomainObject", "object.go: newSTIXRelationshipObject", "option.go: setField", "option.go: OptionExtension"]}
{"id": "C86", "title": "Canonical JSON is a fingerprint of objects", "statement": "Two objects of the same type whose JSON has the same canonical form have the same JSON, and if they are objects that a round trip gives back, they are the same object; comparing canonical texts decides equality of objects. (Full statement: for all objects. This is false of the code: integers beyond 53 bits are rounded by the canonicalizer, negative zero becomes zero, and a Go struct put into an extended property is written in another order than the equal map.) True when integers have at most 53 bits and no number is negative zero and times have years 0 to 9999, for all objects that were read from any text, and for objects made otherwise whose extended properties hold generic values under UTF-8 names of their own.", "quantifier": "all pairs of objects of every type, with extensions, extended properties and nested maps of every depth", "why_tests_cant": "all pairs of values", "anchors": ["object.go: marshalToJSONHelper", "stix.go: valueToMap", "internal/jsoncanonicalizer/jsoncanonicalizer.go: Transform", "internal/jsoncanonicalizer/es6numfmt.go: NumberToJSON"]}
{"id": "C87", "title": "Goroutines can share a collection behind a lock, and read it without one", "statement": "Goroutines that share a collection and take a sync.Mutex around every call, or a sync.RWMutex that reading calls take for reading, never race for its memory; each gets its calls done in its order, no goroutine hangs, and every call returns what it would return if all calls were made one at a time in the order they return. So no object is lost: Get and AllObjects report the last successful Add of every identifier. Once the Add calls have returned, any number of goroutines may read at the same time without a lock; the collection does not change. (Without a lock this is false as soon as one goroutine adds: two first Add calls can both succeed and lose an object.)", "quantifier": "all numbers of goroutines, all sequences of calls of each, all schedules of their single memory accesses, all orders of map iteration, all ways slices grow", "why_tests_cant": "the number of schedules grows exponentially with the accesses; tests see a few of them", "anchors": ["stix.go: Collection", "stix.go: Collection.Add", "stix.go: Collection.Get", "stix.go: Collection.AllObjects", "stix.go: Collection.GetAll", "stix.go: Collection.getObject"]}
{"id": "C88", "title": "Extended properties of one object read from a document are changed without changing another's", "statement": "Setting an extended top-level property of an object that FromJSON returned shows in that property of that object and in nothing else, whatever was done to the objects before. Changing the value of such a property in place (a map or a list in it) shows in another object of the document exactly when that object has the property too and no JSON object after the first of the two, up to the second, has a member of that name; so if the extended properties of every object are members of its own JSON text, no object ever sees a change of another. (That no change in place is ever seen in another object is false: an object inherits the value itself, not a copy.)", "quantifier": "all documents, all configurations, all histories of Set calls and of changes in place, all pairs of objects and property names", "why_tests_cant": "documents and histories are unbounded; tests rarely modify what they read", "anchors": ["stix.go: processObjects", "extension.go: CustomObject.Set", "extension.go: CustomObject.Get", "object.go: STIXDomainObject.GetExtendedTopLevelProperties"]}
{"id": "C89", "title": "Only the set of options and the last parser of each type matter", "statement": "FromJSON gives the same result for two lists of options if both or neither contain NoSortOption, both or neither contain DropCustomOption, and for every type stated in the document the last parser given is the same. So options may be given in any order unless two name parsers for one type, repeating an option changes nothing, a nil parser takes back an earlier one, and a parser for a type the document does not state has no effect.", "quantifier": "all documents, all lists of options, all parsers, all roundings of numbers", "why_tests_cant": "options can be combined in unboundedly many ways", "anchors": ["stix.go: NoSortOption", "stix.go: DropCustomOption", "stix.go: UseCustomParser", "stix.go: New", "stix.go: FromJSON", "stix.go: processObjects"]}
{"id": "C90", "title": "What is read is in proportion to the document", "statement": "Without custom parsers, an object FromJSON makes has at most as many extended properties as its JSON object and the JSON values before it have members, and all objects together have at most the number of values times the number of members; if the extended properties of every object are members of its own JSON text, all objects together have at most as many extended properties as the document has members. (That a constant factor bounds them in general is false: n objects with one extended member each make n(n+1)/2 extended properties.)", "quantifier": "all documents that are read, of any number of objects and members, all configurations without custom parsers", "why_tests_cant": "the number of objects is unbounded; small documents do not show the growth", "anchors": ["stix.go: FromJSON", "stix.go: processObjects", "stix.go: filterOutNonCustom"]}
{"id": "C91", "title": "A null among the objects makes a fresh start", "statement": "If the list of objects of a document has a null in it, FromJSON reads what is before the null and what is after it as two documents of their own, and the result is the first collection with the objects of the second added: Get prefers the second, AllObjects lists the objects of the first and then the new ones of the second, and the first error or panic is that of the whole. So with a null after every object, every object is read as it is read alone, with all options and parsers: nothing of one object shows on another.", "quantifier": "all documents, all positions of nulls, all configurations, all parsers, all roundings of numbers", "why_tests_cant": "documents and their parts are unbounded", "anchors": ["stix.go: FromJSON", "stix.go: processObjects", "stix.go: Collection.Add"]}
{"id": "C92", "title": "Reading a concatenated document is reading its parts one after the other", "statement": "FromJSON of a document whose objects are those of one document followed by those of another gives the collection of the first with the objects of the second added, and the first error or panic of the two. (Full statement: for all pairs of documents. This is false of the code: extended properties of the first document show on objects of the second.) True if the objects of the first have no properties but those of their type, or if custom content is dropped and every object of the second states a type.", "quantifier": "all pairs of documents, all configurations", "why_tests_cant": "documents are unbounded", "anchors": ["stix.go: FromJSON", "stix.go: processObjects", "stix.go: filterOutNonCustom"]}
{"id": "C93", "title": "Appending to a document only adds to what is read", "statement": "If FromJSON reads a document and also the document with further objects appended, the second result is the first with what the appended objects contribute added: nothing is lost, an object stays as it is unless an appended object has its identifier, and AllObjects begins with the same identifiers. If the shorter document fails, the longer one fails with the same error or panic.", "quantifier": "all documents, all continuations, all configurations and parsers", "why_tests_cant": "documents and their continuations are unbounded", "anchors": ["stix.go: FromJSON", "stix.go: processObjects", "stix.go: Collection.Add"]}
{"id": "C94", "title": "DropCustomOption only leaves out", "statement": "If FromJSON reads a document without DropCustomOption, it reads it with the option too, and the result differs only in that custom objects without a parser are missing and the other objects have no extended properties. (Full statement: for all documents. This is false of the code: with the option, an object without a type is taken to be of the type of the object before it, and FromJSON fails.) True if every object states its type.", "quantifier": "all documents, all configurations and parsers", "why_tests_cant": "all documents have to be read in two ways", "anchors": ["stix.go: DropCustomOption", "stix.go: processObjects"]}
{"id": "C95", "title": "A bundle with a null after each object survives reading, extended properties included", "statement": "If a caller puts a null after each entry of the objects of the bundle ToBundle returns, FromJSON of its JSON gives back every object of the collection as it comes back alone: under the same identifier, in the same order, with its own extended properties and no others. Objects in normal form come back as they were. (Without the nulls this is false, see C17.)", "quantifier": "all collections of built in objects with any extended properties and of custom objects, all configurations without parsers for their types", "why_tests_cant": "collections are unbounded", "anchors": ["stix.go: Collection.ToBundle", "bundle.go: Bundle", "stix.go: FromJSON", "stix.go: processObjects"]}
{"id": "C96", "title": "The order of the objects of a document only matters for the order of AllObjects", "statement": "If two documents have the same objects in another order, and no two of the objects have the same identifier, FromJSON reads both or neither, Get gives the same objects, and AllObjects gives the same objects in some order. (Full statement: for all documents. This is false of the code: extended properties spread to the objects that come after.) True if all objects have only properties of their type, or if custom content is dropped and every object states a type; and with a null after each object it is true for all objects.", "quantifier": "all documents and all permutations of their objects, all configurations", "why_tests_cant": "a document of n objects has n! orders", "anchors": ["stix.go: FromJSON", "stix.go: processObjects", "stix.go: Collection.Add", "stix.go: Collection.AllObjects"]}
{"id": "C97", "title": "The extended properties of a read object are exactly what reaches it", "statement": "Without custom parsers and DropCustomOption, the extended properties of an object of a built in type that FromJSON reads are exactly these, with their generic values: for each member name the last member of that name in its own JSON object or one before it, provided that neither the object it stands in nor any object from there on, the object itself included, states a built in type with a property of that name, and that no null stands in between. (The spreading is a defect of the code, see C10; this says how far it goes.) Member names are not empty.", "quantifier": "all documents, all positions in them, all member names", "why_tests_cant": "what reaches an object depends on all objects before it", "anchors": ["stix.go: FromJSON", "stix.go: processObjects", "stix.go: filterOutNonCustom"]}
{"id": "C98", "title": "An object without type is skipped or the document refused", "statement": "Without custom parsers and DropCustomOption, a JSON object without a type member contributes nothing to a document that is read, and a document is only read if no type reaches such an object: if the type of a custom object reaches it (no null and no object of a built in type in between), FromJSON does not return a collection. At the end of a document that is read, a well formed object without type changes nothing exactly if no type reaches it.", "quantifier": "all documents, all positions in them", "why_tests_cant": "what reaches an object depends on all objects before it", "anchors": ["stix.go: FromJSON", "stix.go: processObjects", "stix.go: filterOutNonCustom"]}
{"id": "C99", "title": "With DropCustomOption, an object without type is skipped unless a built in type reaches it", "statement": "With DropCustomOption and without custom parsers, a JSON object without a type member (in any case of letters) contributes nothing to a document that is read. At the end of a document that is read, such a well formed object changes nothing exactly if the last type stated before it with no null in between is not a built in type (or there is none); otherwise FromJSON does not return a collection.", "quantifier": "all documents, all positions in them", "why_tests_cant": "what reaches an object depends on all objects before it", "anchors": ["stix.go: FromJSON", "stix.go: processObjects", "stix.go: DropCustomOption"]}
{"id": "C100", "title": "Reading a document twice over changes nothing", "statement": "If FromJSON reads a document, it also reads the document whose objects are those of the first twice over, and Get and AllObjects of the two collections return the same. (Full statement: for all documents. This is false of the code: the second time, the first objects receive extended properties of the last.) True with a null in between, for all documents, options and parsers; without it if all objects have only properties of their type, or if custom content is dropped and all state a type.", "quantifier": "all documents, all configurations and parsers", "why_tests_cant": "documents are unbounded", "anchors": ["stix.go: FromJSON", "stix.go: processObjects", "stix.go: Collection.Add", "stix.go: Collection.AllObjects"]}
{"id": "C101", "title": "An object of a document is read as alone exactly if nothing more reaches it", "statement": "Without custom parsers and DropCustomOption, in a document that FromJSON reads, an object of a built in type that can have extended properties is read exactly as it is read from a document of its own iff every member that reaches it from the objects before it has the name of one of its own members or of a property of its type. (What reaches an object is described in C97.)", "quantifier": "all documents, all positions in them", "why_tests_cant": "what reaches an object depends on all objects before it", "anchors": ["stix.go: FromJSON", "stix.go: processObjects", "stix.go: filterOutNonCustom"]}
{"id": "C102", "title": "NoSortOption changes nothing about reading but the order of AllObjects", "statement": "FromJSON with NoSortOption, wherever it stands among the options, reads a text exactly if it is read without the option, fails with the same error or panics likewise, and then Get and GetAll return the same and AllObjects returns the same objects in some order.", "quantifier": "all texts, all lists of options and parsers", "why_tests_cant": "texts are unbounded", "anchors": ["stix.go: NoSortOption", "stix.go: FromJSON", "stix.go: Collection.Add", "stix.go: Collection.AllObjects"]}
{"id": "C103", "title": "AllObjects lists what was read in the order of the document", "statement": "If FromJSON reads a document without NoSortOption, AllObjects lists each identifier once, in the order in which the identifiers first stand in the document, and for each the object Get returns. If the identifiers of the objects are all different, AllObjects returns exactly the objects of the document in its order.", "quantifier": "all documents, all configurations and parsers", "why_tests_cant": "documents are unbounded", "anchors": ["stix.go: FromJSON", "stix.go: Collection.Add", "stix.go: Collection.AllObjects"]}
