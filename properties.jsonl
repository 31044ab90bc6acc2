{"id": "C01", "title": "Ids survive printing and reading", "statement": "For every id n that fits in a 64-bit usize, printing the id gives '#' followed by the decimal digits of n, and reading that text in front of any text that does not start with a digit gives back exactly n and leaves exactly that following text. Two different ids never print to the same text.", "quantifier": "all ids 0..2^64-1 and all following texts that do not start with a digit", "why_tests_cant": "a test samples a few ids; leading digits, the 64-bit boundary and the following text are unbounded", "anchors": ["ifc_rs/src/id/plain.rs: Id::parse, Display for Id", "ifc_rs/src/id/typed.rs: TypedId"]}
{"id": "C02", "title": "Integer attributes survive printing and reading", "statement": "For every i64 value the printed decimal text reads back to the same value in front of any text that does not start with a digit; text outside the i64 range is rejected, never wrapped.", "quantifier": "all i64 values, all out-of-range numerals, all following texts", "why_tests_cant": "boundaries and wrap-around need all values", "anchors": ["ifc_rs/src/parser/integer.rs: IntegerPrimitive"]}
{"id": "C03", "title": "Booleans and enumerations: printing then reading is the identity and the spellings are unambiguous", "statement": "Every value of every enumeration type in the library (and of the three-valued boolean) prints to one spelling; reading that spelling followed by any text returns exactly that value; no spelling of one value is a prefix of the spelling of another one tried earlier. Abbreviated boolean spellings .T. .F. .U. read as the long values and print in the long form.", "quantifier": "all values of all enumerations, all following texts and surrounding whitespace", "why_tests_cant": "requires all pairs of spellings of all enumerations against all following texts", "anchors": ["ifc_rs/src/parser/bool.rs: BoolPrimitive", "ifc_rs/src/units/unit_enum.rs", "ifc_rs/src/objects/walltype/type_enum.rs: WallTypeEnum", "ifc_rs/src/geometry/shape_representation/repr_identifier.rs: RepresentationIdentifier"]}
{"id": "C04", "title": "Text attributes survive printing and reading", "statement": "A text attribute whose content has no apostrophe and no backslash is read back exactly after printing, including the umlauts and sharp s which are printed as ASCII escapes. For contents with an apostrophe or with a partial escape sequence this is false: the printed form reads back as a different text or is not readable.", "quantifier": "all Unicode texts", "why_tests_cant": "interaction of seven sequential substitutions with arbitrary text", "anchors": ["ifc_rs/src/parser/string.rs: StringPrimitive, encode, decode"]}
{"id": "C05", "title": "Text literals without raw umlauts are preserved byte for byte by load and save", "statement": "If a quoted literal in a file contains none of the seven special characters in raw form, then loading and saving prints exactly the same literal, whatever escapes (complete, partial, nested or unknown) it contains.", "quantifier": "all literals over all Unicode characters except the seven and the apostrophe", "why_tests_cant": "sequential replacement with overlapping patterns; needs all texts", "anchors": ["ifc_rs/src/parser/string.rs: StringPrimitive::encode, StringPrimitive::decode"]}
{"id": "C06", "title": "Globally unique ids survive printing and reading", "statement": "Every 128-bit GUID prints to exactly 22 characters of the IFC base-64 alphabet and reads back to the same 128 bits; different GUIDs print differently. Conversely reading a 22 character literal and printing it gives the same literal exactly when its first character is one of 0,1,2,3.", "quantifier": "all 2^128 GUIDs and all 64^22 literals", "why_tests_cant": "domain is astronomically large; bit layout mistakes hit few values", "anchors": ["ifc_rs/src/id/ifc_uuid.rs: IfcGloballyUniqueId, encode, decode"]}
{"id": "C07", "title": "Omitted, inherited and present attributes are never confused", "statement": "For every attribute type, an optional attribute prints '$' when omitted, '*' when inherited and the value itself otherwise, and reading gives back the same one of the three cases with the same value. No attribute value prints to a text that starts with '$' or '*'.", "quantifier": "all optional attribute types of all entities and all their values", "why_tests_cant": "needs all values of all attribute types", "anchors": ["ifc_rs/src/parser/optional.rs: OptionalParameter::parse, Display"]}
{"id": "C08", "title": "Lists of any length survive printing and reading, and element order is kept", "statement": "For every list (of any length) of readable elements the printed list reads back to the same elements in the same order. The reader also accepts a missing separator comma and a trailing comma, giving the same elements.", "quantifier": "all lists of all lengths and element types used by the library", "why_tests_cant": "unbounded length", "anchors": ["ifc_rs/src/parser/list.rs: IfcList::parse, Display"]}
{"id": "C09", "title": "Whitespace and comments between tokens do not change what is read", "statement": "Any run of whitespace and closed comments of any length is skipped as a whole; inserting such runs around commas, after the opening parenthesis of an entity and before its closing parenthesis does not change the entity that is read.", "quantifier": "all entities, all sequences of whitespace and comments at the permitted gaps", "why_tests_cant": "unbounded combinations of gaps and contents", "anchors": ["ifc_rs/src/parser/mod.rs: p_space_or_comment, p_comment, p_space_or_comment_surrounded", "ifc_rs/src/parser/comma.rs"]}
{"id": "C10", "title": "Every entity survives printing and reading", "statement": "For every entity kind the library implements and every value of its attributes (texts without apostrophe and backslash, reals that print exactly, ids and integers in range), the printed line reads back to the same entity kind with the same attribute values, and consumes exactly the printed text plus following whitespace.", "quantifier": "all entity kinds, all attribute values, all following texts", "why_tests_cant": "product of all attribute domains over about 75 entity kinds", "anchors": ["ifc_rs/src/objects/mod.rs: Objects::parse", "ifc_rs/src/geometry/mod.rs: Geometry::parse", "ifc_rs/src/relations/mod.rs: Relation::parse", "ifc_rs/src/units/mod.rs", "ifc_rs/src/materials/mod.rs", "ifc_rs/src/properties/mod.rs"]}
{"id": "C11", "title": "Entity kinds never shadow each other when reading", "statement": "The reader tries the implemented entity kinds one after the other and takes the first that matches; a line printed for kind K is never taken by a kind tried before K, for no attribute values.", "quantifier": "all ordered pairs of entity kinds, all attribute values", "why_tests_cant": "needs all pairs and all values", "anchors": ["ifc_rs/src/meta/datamap/deserialize.rs: p_obj", "ifc_rs/src/objects/mod.rs", "ifc_rs/src/geometry/mod.rs", "ifc_rs/src/relations/mod.rs", "ifc_rs/src/units/mod.rs", "ifc_rs/src/materials/mod.rs", "ifc_rs/src/properties/mod.rs"]}
{"id": "C12", "title": "Entities the library does not implement are carried through unchanged", "statement": "A data line whose entity is not recognised by any implemented kind is kept as opaque text up to the first semicolon and is printed again verbatim; reading the printed line gives the same opaque text again as long as no implemented kind matches it. A semicolon inside a quoted text of such a line cuts the line.", "quantifier": "all unrecognised entity texts", "why_tests_cant": "unbounded text", "anchors": ["ifc_rs/src/parser/dummy.rs: Dummy", "ifc_rs/src/meta/datamap/deserialize.rs: p_obj"]}
{"id": "C13", "title": "The data section survives printing and reading, in id order", "statement": "Printing the data section lists every object once in increasing id order, and reading the printed section gives the same map from ids to objects, for maps of any size.", "quantifier": "all data maps of any size with readable objects", "why_tests_cant": "unbounded maps", "anchors": ["ifc_rs/src/meta/datamap/serialize.rs", "ifc_rs/src/meta/datamap/deserialize.rs"]}
{"id": "C14", "title": "When a file defines an id twice the last definition wins", "statement": "Reading a data section with repeated ids gives for each id exactly the object of its last definition; ids not mentioned are absent.", "quantifier": "all sequences of definitions", "why_tests_cant": "unbounded sequences", "anchors": ["ifc_rs/src/meta/datamap/deserialize.rs: DataMap::parse", "ifc_rs/src/meta/datamap/mod.rs: From for DataMap"]}
{"id": "C15", "title": "The header survives printing and reading", "statement": "For every header whose texts contain no apostrophe (and whose view definition names and items have the characters the reader accepts) printing and reading gives the same header: version, view definitions, implementation level, file name, whole-second timestamp, authors, organisations, preprocessor, originating system, authorisation and schema.", "quantifier": "all header values under the stated character conditions", "why_tests_cant": "unbounded texts and lists", "anchors": ["ifc_rs/src/meta/header/deserialize.rs", "ifc_rs/src/meta/header/serialize.rs", "ifc_rs/src/meta/header/mod.rs"]}
{"id": "C16", "title": "A whole model survives save and load", "statement": "For every model (header, data of any size, footer) whose parts are printable in the sense of C10, C12 and C15, reading the printed file succeeds syntactically and gives back the same header, the same map and the same footer, with no text left over.", "quantifier": "all models of any size", "why_tests_cant": "unbounded models", "anchors": ["ifc_rs/src/lib.rs: IFC::parse, Display for IFC, FromStr for IFC", "ifc_rs/src/meta/footer/mod.rs"]}
{"id": "C17", "title": "Save after load is stable", "statement": "For every accepted file text (with literals free of raw umlauts, reals that print exactly and no opaque line that becomes recognisable by removing the blank before its semicolon) load, save, load gives the same model as load, and saving again gives the same text.", "quantifier": "all accepted file texts", "why_tests_cant": "all texts, including every legal layout", "anchors": ["ifc_rs/src/lib.rs: FromStr for IFC, Display for IFC"]}
{"id": "C18", "title": "Real attributes: which values survive printing and reading", "statement": "A real value that is printed in plain form reads back to exactly the same 64-bit float. A value printed in scientific form with 15 significant digits reads back to the float nearest to that decimal; a second save and load does not change it any more. The plain form is the sign, the integer part without leading zeros, a point, and a fraction without trailing zeros that is absent exactly for integers; no decimal of fewer digits is read as the number, and none of as many digits that is read as it is closer.", "quantifier": "all finite 64-bit floats", "why_tests_cant": "2^64 values", "anchors": ["ifc_rs/src/parser/real.rs: format_real_primitive, format_sci_double, format_non_sci_double"]}
{"id": "C19", "title": "Successful load means that all checked references are valid", "statement": "If loading a file succeeds, then every reference attribute that the library checks points to an existing object whose kind is one of the permitted kinds or an unimplemented kind.", "quantifier": "all files that load successfully", "why_tests_cant": "unbounded object graphs", "anchors": ["ifc_rs/src/lib.rs: FromStr for IFC", "ifc_rs_verify_derive/src/field.rs", "ifc_rs_verify_derive/src/lib.rs"]}
{"id": "C20", "title": "Load fails with an error exactly for a wrongly typed reference", "statement": "For files whose references all exist, loading returns an error exactly when some checked reference points to an object of an implemented but not permitted kind.", "quantifier": "all syntactically valid files without dangling references", "why_tests_cant": "unbounded object graphs", "anchors": ["ifc_rs_verify_derive/src/field.rs", "ifc_rs_verify_derive/src/data_type.rs", "ifc_rs/src/lib.rs: FromStr for IFC"]}
{"id": "C21", "title": "Loading never panics (violated)", "statement": "Loading an arbitrary text returns a model or an error. The library violates this: a checked reference to an id that is not in the file, an out-of-range time stamp in an owner history and a malformed time stamp in the header each abort with a panic. Loading does not panic if all checked references exist, owner history stamps are in range and the header stamp is well formed.", "quantifier": "all texts", "why_tests_cant": "needs a search over all texts and a proof for the rest", "anchors": ["ifc_rs/src/meta/datamap/mod.rs: DataMap::get_untyped", "ifc_rs/src/parser/timestamp.rs: IfcTimestamp::parse", "ifc_rs/src/meta/header/deserialize.rs: p_name", "ifc_rs_verify_derive/src/field.rs"]}
{"id": "C22", "title": "A newly inserted object gets an unused id and disturbs nothing", "statement": "Inserting a new object returns an id that was not used before, is greater than all used ids and at least 1; the new object is found under it and every other id keeps its object. If the largest 64-bit id is already used the insertion cannot succeed.", "quantifier": "all data maps, all objects", "why_tests_cant": "all map states; boundary at 2^64-1", "anchors": ["ifc_rs/src/meta/datamap/mod.rs: DataMap::insert_new"]}
{"id": "C23", "title": "The data map behaves like a finite map in id order", "statement": "For every sequence of insertions (new, at an id, only-if-absent), removals and replacements the data map answers lookups like a mathematical finite map, iterates in strictly increasing id order, replacing insertion returns the old object, and insert-if-absent never overwrites.", "quantifier": "all operation sequences", "why_tests_cant": "unbounded histories", "anchors": ["ifc_rs/src/meta/datamap/mod.rs: insert, insert_if_not_exists, remove, contains, get_untyped"]}
{"id": "C24", "title": "Typed lookup and typed search agree with the stored kinds", "statement": "Typed lookup returns an object exactly when the id exists and the object has the requested kind and panics otherwise; searching for all objects of a kind returns exactly those objects, each once, in increasing id order.", "quantifier": "all data maps and kinds", "why_tests_cant": "all map states", "anchors": ["ifc_rs/src/meta/datamap/mod.rs: get, get_mut, find_all_of_type, id_of"]}
{"id": "C25", "title": "Passing an id or a value as attribute has the documented effect", "statement": "Setting a reference attribute with an id stores that id and inserts nothing; setting it with a value inserts that value exactly once under a fresh id and stores this id; all other objects are unchanged.", "quantifier": "all data maps, ids and values", "why_tests_cant": "all map states", "anchors": ["ifc_rs/src/id/id_or.rs: IdOr::or_insert"]}
{"id": "C26", "title": "The extractor returns exactly the aggregated children", "statement": "Asking for the children of a given kind of an object returns exactly the ids of that kind that occur in aggregation relations of that object, in relation id order and list order.", "quantifier": "all models without dangling aggregation references", "why_tests_cant": "unbounded models", "anchors": ["ifc_rs/src/ifc_extractor/mod.rs: relations_of, projects, sites, buildings, storeys"]}
{"id": "C27", "title": "The extractor returns exactly the contained structures of a storey", "statement": "The structures reported for a storey are exactly the ids listed by containment relations of this storey, relation by relation in id order and in list order.", "quantifier": "all models", "why_tests_cant": "unbounded models", "anchors": ["ifc_rs/src/ifc_extractor/mod.rs: contained_structures"]}
{"id": "C28", "title": "The extractor's type, material and opening queries follow the relations", "statement": "The reported type is the type of the first relation in id order that mentions the element; the reported layers are, relation by relation, the layers of the layer sets reached from the element's material relations; the reported openings are exactly the openings of the element's void relations.", "quantifier": "all models", "why_tests_cant": "unbounded models", "anchors": ["ifc_rs/src/ifc_extractor/mod.rs: related_type, related_materials, related_voids, related_constiuents"]}
{"id": "C29", "title": "A project made with the builder always loads again", "statement": "For every sequence of builder calls that creates no shading device, with names free of apostrophes and backslashes and with reals that print exactly, the text returned by build is accepted by the loader and gives back the same objects, whatever order the hash containers are iterated in.", "quantifier": "all builder programs (any number of sites, buildings, storeys, elements, openings, transforms), all hash orders, all GUIDs", "why_tests_cant": "unbounded programs and nondeterministic hash order", "anchors": ["ifc_rs/src/ifc_builder/project.rs: IfcProjectBuilder::build", "ifc_rs/src/ifc_builder/storey.rs: Drop for IfcStoreyBuilder", "ifc_rs/src/lib.rs: FromStr for IFC"]}
{"id": "C30", "title": "Projects with shading devices load again (violated)", "statement": "A project built with a shading device loads again. The library violates this: the storey's containment relation lists the shading device although the loader does not permit shading devices there, so loading the library's own output fails.", "quantifier": "all builder programs with at least one shading device", "why_tests_cant": "claims failure for all such programs", "anchors": ["ifc_rs/src/ifc_builder/shading_devices.rs", "ifc_rs/src/ifc_builder/storey.rs: Drop", "ifc_rs/src/relations/rel_contained_in_spatial_structure.rs: related_elements"]}
{"id": "C31", "title": "Every built element is contained in exactly its storey", "statement": "After build, each wall, slab, roof, window and shading device created on a storey is listed exactly once, in the containment relation of that storey and in no other.", "quantifier": "all builder programs, all hash orders", "why_tests_cant": "unbounded programs", "anchors": ["ifc_rs/src/ifc_builder/storey.rs: Drop for IfcStoreyBuilder", "ifc_rs/src/ifc_builder/walls.rs", "ifc_rs/src/ifc_builder/slabs.rs", "ifc_rs/src/ifc_builder/roofs.rs", "ifc_rs/src/ifc_builder/windows.rs"]}
{"id": "C32", "title": "Every opening cuts exactly its host and every window fills exactly its opening", "statement": "After build there is, for each opening created on a wall or slab, exactly one void relation naming this opening and it names that host; for each opening with a window exactly one fill relation naming the opening and its window.", "quantifier": "all builder programs, all hash orders", "why_tests_cant": "unbounded programs", "anchors": ["ifc_rs/src/ifc_builder/openings.rs", "ifc_rs/src/ifc_builder/windows.rs", "ifc_rs/src/ifc_builder/storey.rs: Drop for IfcStoreyBuilder"]}
{"id": "C33", "title": "Every built element is related to its type; for spaces this fails", "statement": "After build each wall, slab, roof, window and shading device is listed in exactly one type relation and its type is the one passed at creation. Spaces are not: the builder drops the type passed for a space.", "quantifier": "all builder programs, all hash orders", "why_tests_cant": "unbounded programs", "anchors": ["ifc_rs/src/ifc_builder/storey.rs: Drop for IfcStoreyBuilder", "ifc_rs/src/ifc_builder/spaces.rs"]}
{"id": "C34", "title": "Every built element is associated with its material exactly once", "statement": "After build there is for each used material and element class exactly one association relation, and each element is listed once in the relation of the material passed at creation.", "quantifier": "all builder programs, all hash orders", "why_tests_cant": "unbounded programs", "anchors": ["ifc_rs/src/ifc_builder/project.rs: build", "ifc_rs/src/ifc_builder/walls.rs: wall", "ifc_rs/src/ifc_builder/slabs.rs: slab"]}
{"id": "C35", "title": "The spatial tree matches the nesting of the builder calls", "statement": "After build the aggregation relations link the project to its sites, every site to its buildings, every building to its storeys and every storey to its spaces, each exactly once, in some order, and the extractor finds the same tree.", "quantifier": "all builder programs, all hash orders", "why_tests_cant": "unbounded programs", "anchors": ["ifc_rs/src/ifc_builder/project.rs", "ifc_rs/src/ifc_builder/site.rs", "ifc_rs/src/ifc_builder/building.rs", "ifc_rs/src/ifc_builder/storey.rs", "ifc_rs/src/ifc_extractor/mod.rs"]}
{"id": "C36", "title": "Builder operations never remove or retype an object", "statement": "Every id handed out by the builder keeps denoting an object of the same kind until build; later calls change no attribute of existing objects except the list of representations of a transformed shape.", "quantifier": "all builder programs", "why_tests_cant": "unbounded histories", "anchors": ["ifc_rs/src/ifc_builder/mod.rs", "ifc_rs/src/ifc_builder/transforms.rs", "ifc_rs/src/meta/datamap/mod.rs"]}
{"id": "C37", "title": "Element thickness is the sum of its material layers", "statement": "The thickness of a wall, slab, roof or shading device is the sum in list order of the thicknesses of the layers of the layer set of the material it was created with: it is the second side of the rectangle of a vertical wall and the extrusion depth of every other shape.", "quantifier": "all layer lists of any length", "why_tests_cant": "unbounded lists", "anchors": ["ifc_rs/src/ifc_builder/materials.rs: calculate_material_layer_set_thickness", "ifc_rs/src/ifc_builder/walls.rs: vertical_wall", "ifc_rs/src/ifc_builder/slabs.rs"]}
{"id": "C38", "title": "Transforming keeps the number and the roles of representations; the storey level transform does not keep the roles", "statement": "Applying a transform through a wall or slab builder replaces each representation of the element by one mapped representation of it, in the same order and with the same identifier. The transform method of the storey builder labels every result Body, so the Axis representation of a wall is lost as such.", "quantifier": "all shapes with any number of representations, any number of successive transforms", "why_tests_cant": "unbounded lists and nesting", "anchors": ["ifc_rs/src/ifc_builder/transforms.rs: builder_transform, IfcStoreyBuilder::transform"]}
{"id": "C39", "title": "A transformed wall or slab moves its openings and their windows with it", "statement": "When a wall or slab builder with a transform is finished, exactly the wall or slab, the openings attached to it and the windows in those openings get new representations; nothing else changes.", "quantifier": "all storeys with any number of walls, openings and windows, all hash orders", "why_tests_cant": "unbounded programs", "anchors": ["ifc_rs/src/ifc_builder/walls.rs: Drop for IfcWallBuilder", "ifc_rs/src/ifc_builder/slabs.rs: Drop for IfcSlabBuilder"]}
{"id": "C40", "title": "Placements made by the builder form a forest that ends at the site", "statement": "Every placement created relative to a parent refers to the placement of this parent, ids strictly decrease along the chain, so following the chain always terminates.", "quantifier": "all builder programs", "why_tests_cant": "unbounded nesting", "anchors": ["ifc_rs/src/traits/relative_placement.rs: new_relative", "ifc_rs/src/geometry/local_placement/mod.rs: LocalPlacement"]}
{"id": "C41", "title": "Hash order does not influence the built content", "statement": "Two runs of the same builder program with different hash orders give the same ids to the caller, the same kind under every id and the same objects, up to the order of the objects made in one walk of a hash table (relations, and the representations of openings and windows moved with their wall or slab) and the order inside relation lists.", "quantifier": "all builder programs, all pairs of hash orders", "why_tests_cant": "nondeterminism across process runs", "anchors": ["ifc_rs/src/ifc_builder/storey.rs: Drop for IfcStoreyBuilder", "ifc_rs/src/ifc_builder/project.rs: build"]}
{"id": "C42", "title": "Wrongly typed owner histories of relations are not detected (violated)", "statement": "A file in which the owner history of any object refers to something else is rejected. The library violates this for relations and property sets, because the shared attributes of these kinds are not checked; for products, types and projects it holds.", "quantifier": "all files", "why_tests_cant": "needs a witness and a proof for the other kinds", "anchors": ["ifc_rs_verify_derive/src/inherited.rs", "ifc_rs/src/relations/rel_aggregates.rs: root", "ifc_rs/src/objects/shared/root.rs: owner_history"]}
{"id": "C43", "title": "An unsupported dimension count is silently changed", "statement": "Reading and printing an optional coordinate space dimension other than 1, 2 or 3 keeps the number. The library violates this: such a number becomes the inherited marker '*'; values 1, 2 and 3 are kept.", "quantifier": "all integers", "why_tests_cant": "all integers", "anchors": ["ifc_rs/src/geometry/dimension_count.rs: fallback"]}
{"id": "C44", "title": "A plane angle measure as a data line makes the file unreadable", "statement": "A file is readable if each of its lines is. The library violates this for a line consisting of a plane angle measure followed by a semicolon: the measure is read without its semicolon and the rest of the file is rejected, although an opaque line would have been accepted.", "quantifier": "all files with such a line", "why_tests_cant": "claims failure for all such files", "anchors": ["ifc_rs/src/units/measure/plane_angle.rs: PlaneAngleMeasure", "ifc_rs/src/meta/datamap/deserialize.rs: p_line"]}
{"id": "C45", "title": "Setting true north on a representation context makes the model unloadable", "statement": "A context made with the public API loads again. The library violates this for a context with true north: the method stores an axis placement but the loader only permits directions.", "quantifier": "all models with such a context", "why_tests_cant": "claims failure for all such models", "anchors": ["ifc_rs/src/geometry/representation_context/mod.rs: true_north"]}
{"id": "C46", "title": "The schema name in the header is normalised and stable", "statement": "Each accepted spelling of the schema name is mapped to one of the three schema values, the printed name of each schema value reads back to the same value, and every other spelling is rejected.", "quantifier": "all schema texts", "why_tests_cant": "all texts", "anchors": ["ifc_rs/src/meta/header/deserialize.rs: p_schema", "ifc_rs/src/meta/header/serialize.rs"]}
{"id": "C47", "title": "A file is accepted only if it is consumed completely and has the required sections", "statement": "If loading succeeds the text consists of the version line, the header, a data section closed by ENDSEC, the end marker with the version, and nothing after it except whitespace and comments.", "quantifier": "all texts", "why_tests_cant": "all texts", "anchors": ["ifc_rs/src/lib.rs: IFC::parse", "ifc_rs/src/meta/footer/mod.rs", "ifc_rs/src/meta/datamap/deserialize.rs"]}
{"id": "C48", "title": "A wall whose predefined type is an enumeration value is not read as a wall", "statement": "A wall line whose last attribute is an enumeration value such as .STANDARD. (the form IFC4 prescribes) is read as a wall. The library violates this: the attribute is declared as a reference to or an inline wall type, so every such wall becomes an opaque unimplemented entity, invisible to typed lookups and the extractor.", "quantifier": "all walls, both keywords, all values of the other attributes, all gaps", "why_tests_cant": "the tests only use '$' as the last attribute of a wall; that no choice of the other attributes makes the line readable needs an argument over all of them", "anchors": ["ifc_rs/src/objects/wall/mod.rs:30", "ifc_rs/src/objects/wall/deserialize.rs:9-24"]}
{"id": "C49", "title": "Built models say what the caller gave", "statement": "The object with the id a builder call returned has the name, predefined type, layers, constituents, layer set, direction, sense, offset, thickness and other values that were passed to the call, layers and constituents refer to a material with the given name, and the project carries the given project name, person, organisation, developer and application and the units metre, radian and second; later calls, transforms and build do not change any of it.", "quantifier": "all builder programs, all arguments, all hash orders", "why_tests_cant": "the tests build a handful of fixed projects; that no later call overwrites an earlier value needs an invariant over all programs", "anchors": ["ifc_rs/src/ifc_builder/*.rs", "ifc_rs/src/ifc_builder/project.rs:33-114", "ifc_rs/src/ifc_builder/materials.rs"]}
{"id": "C50", "title": "Objects have exactly the property sets they were given", "statement": "The pairs of property set and object related by IfcRelDefinesByProperties in a built model are exactly those asked for by relate calls and by finishing wall properties, in that order, and each set has the given name and exactly the properties added while it was open, in their order. The elevation of a storey is stored as a property of a set StoreyProperties; the claim that this set is related to the storey is violated: nothing relates it.", "quantifier": "all builder programs, all property names and values", "why_tests_cant": "unbounded sequences of calls; a set that is never related is invisible in tests that only look at what is related", "anchors": ["ifc_rs/src/ifc_builder/properties.rs", "ifc_rs/src/ifc_builder/storey.rs:48-90"]}
{"id": "C51", "title": "The extractor reads what was built", "statement": "On a built model, and again after saving and loading it, every query of the extractor answers exactly what the builder calls asked for and never panics on ids of the calls: the parts of a node in the spatial tree, the elements contained in a storey, the openings of a wall or slab, the type of an element, the layers of its material in their order (found from the calls that made usage and layer set) and the constituents of a window's material in their order. Elements without a type relation (spaces) make the type query panic.", "quantifier": "all builder programs, all hash orders, all objects asked about", "why_tests_cant": "unboundedly many programs, objects and hash orders", "anchors": ["ifc_rs/src/ifc_extractor/mod.rs: IfcExtractor", "ifc_rs/src/ifc_builder/storey.rs: Drop for IfcStoreyBuilder", "ifc_rs/src/ifc_builder/project.rs: build"]}
{"id": "C52", "title": "Reading geometry gives what the objects say", "statement": "The mappings of axes, rectangle and arbitrary profiles, extruded solids, transforms and mapped items, and PolyLine::points, return exactly the coordinates, sizes and optional attributes that the referenced (or embedded) objects hold, in their order; they panic exactly if something they follow is missing, is not of a permitted kind, or is an empty or mixed polyline. In a loaded model (without embedded objects) that leaves only lines of unknown kinds and such polylines; in a built model nothing. ShapeRepresentation::items, items_of, parent_context and Product::shapes likewise.", "quantifier": "all models, all objects, all loaded texts, all builder programs", "why_tests_cant": "unboundedly many models and reference graphs; the unreachable! branches are reached only by particular files", "anchors": ["ifc_rs/src/geometry/axis/mod.rs: mappings", "ifc_rs/src/geometry/polyline/mod.rs: points", "ifc_rs/src/geometry/rectangle_profile_def/mod.rs: mappings", "ifc_rs/src/geometry/arbitrary_closed_profile_def/mod.rs: mappings", "ifc_rs/src/geometry/extruded_area_solid.rs: mappings", "ifc_rs/src/geometry/transform_base.rs: mappings", "ifc_rs/src/relations/mapped_item.rs: mappings", "ifc_rs/src/geometry/shape_representation/mod.rs: items, items_of, parent_context", "ifc_rs/src/objects/shared/product.rs: shapes"]}
{"id": "C53", "title": "Constructors and setters store what they are given and keep models loadable", "statement": "Every public constructor and setter puts its arguments into the attributes of its name and no others (omitted, empty or inherited attributes otherwise); objects given by value are inserted under the next ids, in the order of the attributes, everything else in the model stays. A call panics exactly if no id is left or it appends to an attribute that was read as `*`. A program of constructors, setters and insertions with ids of the model never makes a model whose loading panics; the model loads if all references are to the kinds the loader accepts for that attribute, and one other reference makes it fail. Setters of different attributes commute, and the last call of one setter counts.", "quantifier": "all programs (any length), all arguments, all starting models without dangling references", "why_tests_cant": "163 functions with arbitrary arguments in arbitrary sequences; the refused kinds pass the compiler", "anchors": ["ifc_rs/src/objects/shared/root.rs: Root::new, RootBuilder", "ifc_rs/src/objects/shared/product.rs: ProductBuilder", "ifc_rs/src/objects/person/mod.rs: add_role, add_address", "ifc_rs/src/relations/rel_contained_in_spatial_structure.rs: new, relate_structure", "ifc_rs/src/relations/rel_aggregates.rs: new", "ifc_rs/src/objects/owner_history/mod.rs: owning_user", "ifc_rs/src/geometry/representation_context/mod.rs: true_north", "ifc_rs/src/id/id_or.rs: IdOr::or_insert"]}
{"id": "C54", "title": "Walking through a model with the extractor", "statement": "Walking through a built model as examples/extractor.rs does (project, sites, buildings, storeys, spaces, structures, their types, materials, openings and the items of their representations, into mapped items) comes to its end without a panic. It meets every site, building, storey and space once, on every storey exactly the elements put there, each with the form it was given when it was made, inside one mapped item per later transform, the last one outermost. After saving and loading it meets the same with the reals and texts as they are read back. In any model the walk ends if no shape representation is shown within itself.", "quantifier": "all builder programs, all hash orders, all nesting depths, all models", "why_tests_cant": "transforms can be nested to any depth and interleave with all other calls; cyclic representations appear only in particular files", "anchors": ["ifc_rs/examples/extractor.rs: print_project_hierarchy, print_storeys, print_structure, print_items", "ifc_rs/src/ifc_extractor/mod.rs: projects, related_sites, related_buildings, related_stories, related_spaces", "ifc_rs/src/traits/ifc_type.rs: to_structure", "ifc_rs/src/traits/sub_types.rs: structure_type", "ifc_rs/src/objects/shared/product.rs: shapes", "ifc_rs/src/relations/mapped_item.rs: mappings"]}
{"id": "C55", "title": "Everything stands in a file under its own name", "statement": "Every variant of every enumeration is printed with the word declared for it and this word (with any white space and comments around) is read as this variant, other words are refused; the letters of the word are those of the variant's name, except for ten words. Measures are printed with the name of their type in capitals and read in both spellings. Every kind of object is printed and read under IFC and the name of its struct (ten have another name); the standard cases of walls, slabs, windows and doors are read as these.", "quantifier": "all enumerations, variants, measures with any content, all kinds with any attributes, any gaps and following text", "why_tests_cant": "hundreds of words; a swapped pair of words reads and prints consistently, so round-trip tests do not see it", "anchors": ["ifc_rs/src/units/unit_enum.rs: IfcUnitEnum", "ifc_rs/src/units/prefix.rs: IfcPrefix", "ifc_rs/src/units/name.rs: IfcUnitName", "ifc_rs/src/objects/actor_role/mod.rs: Role", "ifc_rs/src/objects/walltype/type_enum.rs: WallTypeEnum", "ifc_rs/src/values/core.rs: IfcValue", "ifc_rs/src/objects/wall/deserialize.rs: parse", "ifc_rs/src/geometry/shape_representation/repr_identifier.rs: RepresentationIdentifier"]}
{"id": "C56", "title": "Directions have length one", "statement": "The arithmetic used for geometry is correctly rounded (nearest number, ties to even, signs of zeros, overflow), which leaves one result only, and treats infinities, division by zero and what is not a number as IEEE 754 does. Direction2D::from and Direction3D::from turn a vector whose largest component lies between 2^-400 and 2^400 into one whose squares add up to 1 within 2^-47 and which points where the vector pointed; every direction in a model built by a program that gives such vectors has length one, also those the builder computes itself.", "quantifier": "all pairs of numbers, all vectors of moderate size, all builder programs and oracles", "why_tests_cant": "rounding errors depend on all bits of the components; the builder computes directions along many paths; tests compare a few axis-parallel ones", "anchors": ["ifc_rs/src/geometry/direction/mod.rs: From<DVec2>, From<DVec3>", "ifc_rs/src/ifc_builder/transforms.rs: builder_transform", "ifc_rs/src/ifc_builder/slabs.rs: vertical_slab", "ifc_rs/src/ifc_builder/walls.rs: wall"]}
{"id": "C57", "title": "The last axis that is given and not zero counts", "statement": "After any chain of translation, rotation, x_rotation, y_rotation and z_rotation on TransformParameter::default() the translation is the last one given, and each axis is the last vector given for it (directly or as the image of the axis under a rotation) that is not the zero vector, or the default axis if there is none; so no axis is the zero vector, and a transform with vectors of moderate size writes directions of length one.", "quantifier": "all chains of calls, all vectors, all rotations (as functions)", "why_tests_cant": "orders of calls and repeated calls are unbounded; negative zeros and NaN compare differently", "anchors": ["ifc_rs/src/ifc_builder/transforms.rs: TransformParameter"]}
{"id": "C58", "title": "Built products lie where the calls put them, in exact numbers", "statement": "In a built model the body of every product is extruded along a vector of length one that is, up to 2^-46, a positive multiple of the exact vector the call asks for: upwards, the given direction, the normal of the line between the two points of a vertical slab, or for openings in slabs the direction of the slab. The axis of an arbitrary wall is level and at a right angle to its direction. The thickness is the exact sum of the layers up to 2^-51 of it per layer; the centre of a rectangle is half its sides from the corner.", "quantifier": "all builder programs with directions of moderate size, all hash orders; all lists of up to 2^50 layers", "why_tests_cant": "exact numbers against rounded arithmetic over all inputs; tests compare against recorded output", "anchors": ["ifc_rs/src/ifc_builder/walls.rs: arbitrary_wall", "ifc_rs/src/ifc_builder/slabs.rs: vertical_slab", "ifc_rs/src/ifc_builder/materials.rs: calculate_material_layer_set_thickness", "ifc_rs/src/geometry/product_definition_shape/mod.rs: new_rectangular_shape"]}
{"id": "C59", "title": "Saving and loading changes a number by at most one part in 10^14", "statement": "Every binary64 number that is printed and read again keeps its sign and class and differs from itself by at most 10^-14 of itself. A model that is saved and loaded has the same header, ids and kinds, and values that differ only in this way (and in texts that look like escape sequences). After saving and loading, the directions of a built model still have length one up to 2^-45, every product still has the form that was asked for, point by point, and is extruded where it was asked to be, up to 2^-45. A bound of 0.4 10^-14 does not hold.", "quantifier": "all binary64 numbers; all well-formed models; all builder programs without shading devices, all hash orders", "why_tests_cant": "error bound over all numbers and models; the repository's tests use numbers that are printed exactly", "anchors": ["ifc_rs/src/parser/real.rs: IfcFloat::parse, format_real_primitive, format_sci_double", "ifc_rs/src/lib.rs: Display for IFC, FromStr for IFC", "ifc_rs/src/ifc_builder/mod.rs: build"]}
{"id": "C60", "title": "No two objects of a built model share a globally unique identifier", "statement": "Every object of a kind with a globally unique identifier that is in a built model has an identifier drawn from the generator for this project. If the generator does not repeat itself while the project is built, no two objects share an identifier: not the elements, types, relations and property sets, nor the associations of materials, which are kept aside until build. The same holds in the model read back from the saved text.", "quantifier": "all builder programs, all hash orders, all generators that do not repeat themselves while the project is built (for the loaded model: programs without shading devices)", "why_tests_cant": "a statement about every pair of objects of every program; tests with random identifiers cannot observe a reuse that depends on the order of calls", "anchors": ["ifc_rs/src/id/ifc_uuid.rs: IfcGloballyUniqueId::new_v4", "ifc_rs/src/objects/shared/root.rs: Root::new", "ifc_rs/src/ifc_builder/project.rs: build", "ifc_rs/src/ifc_builder/walls.rs: wall (or_insert_with)"]}
{"id": "C61", "title": "Every object of a built model is one of a fixed table of rows", "statement": "A built model consists of objects of 59 kinds, and each object has one of the rows its kind has in a fixed table: for every attribute the table says that it is omitted, that it is an identifier, the owner history of the project, a given text, a fixed word, a generated name (such as 'Material12ToWalls', where 12 is the object the association refers to), a fixed enumeration word, a number, a reference to an object of a given kind (an association refers to the kind of material its elements need) or a list of such references, with the number of entries where it is fixed. The model begins with the same fifteen objects (organizations, person, application, owner history, units metre/radian/second, context, project, sub-context) with the same numbers, and their kinds (except points and axes) do not occur again. The relations of a storey whose names end in a number stand one after the other and are counted from zero.", "quantifier": "all builder programs with sane arguments, all hash orders, all generators and clocks", "why_tests_cant": "one statement about every attribute of every object of every program; the snapshot tests compare a handful of outputs", "anchors": ["ifc_rs/src/ifc_builder/project.rs: IfcProjectBuilder::new, build", "ifc_rs/src/ifc_builder/storey.rs: Drop", "ifc_rs/src/ifc_builder/walls.rs, slabs.rs, roofs.rs, windows.rs, spaces.rs, properties.rs, materials.rs", "ifc_rs/src/objects/*: new"]}
{"id": "C62", "title": "Builder programs never panic unless they make up ids", "statement": "A program of builder calls that compiles (each call is a method of the innermost living builder) and takes only ids returned by earlier calls, of the kinds the signatures demand, runs to its end: every call returns, every Drop finishes, build gives a model, and without shading devices the text of the model is accepted by the parser. Conversely a program that was built honestly is of this form. After any such calls the next call returns too, and all geometry can be read. A made-up id makes the builder panic.", "quantifier": "all builder programs of fewer than 2^28 calls with sane arguments, all hash orders, all generators and clocks", "why_tests_cant": "panics inside builder methods and Drop impls depend on what earlier calls left in the map and on the order in which hash sets are walked; a test runs a handful of programs", "anchors": ["ifc_rs/src/ifc_builder/*.rs: new_*, Drop impls, build", "ifc_rs/src/parser/ifc.rs: DataMap::get, get_mut (panic on missing or wrong kind)", "ifc_rs/src/objects/shared/product.rs: direction, local_placement", "ifc_rs/src/ifc_builder/transform.rs"]}
{"id": "C63", "title": "What is loaded is spelled in the file", "statement": "If a text loads, it is a header, a list of definitions and the end marks with nothing else in between, and the model holds for each id exactly the last definition of it in the text: every attribute is what the text at its place stands for (a numeral its nearest binary64 number with ties to even, a literal its text with the directives carried out, a 22 character id its number to the base 64, an enumeration word its variant, a reference its number), in the order of the schema table; and every field of the header is what stands in its entry. Nothing is invented, shifted, swapped or carried over from another line.", "quantifier": "all texts that load, all attribute types, all behaviours of the time library", "why_tests_cant": "tests compare a few sample files; a reader that mixes up two alternatives or rounds wrongly is noticed only on texts nobody wrote down", "anchors": ["ifc_rs/src/parser/*.rs: p_* primitives, IFC::parse, FromStr", "ifc_rs/src/meta/datamap/deserialize.rs", "ifc_rs/src/meta/header/deserialize.rs", "ifc_rs/src/id/ifc_uuid.rs: parse", "ifc_rs/src/**: IFCParse impls of all kinds"]}
{"id": "C64", "title": "Every well-formed file is read", "statement": "A text that is a well-formed header, well-formed definitions and the end marks is read to its end, whatever numerals, letter case of NaN and infinities, measure names, optional commas in lists, white space and comments it uses, however many objects it has and of which of the supported kinds or of others: the model has this header and, under each id, an object of the kind written there, with the values the text spells (last definition wins). It is loaded exactly if all references are to objects of permitted kinds; if not, it fails because of such a reference, never because of the text. A text is read as a header, a number, a reference or an identifier exactly if it spells it, and it spells at most one.", "quantifier": "all well-formed texts, all kinds, all attribute types of any kind, all behaviours of the time library", "why_tests_cant": "a parser that rejects or misreads a rare combination (an alternative shadowed by an earlier one, a gap not skipped, a numeral form not accepted) fails only on files that the samples do not contain", "anchors": ["ifc_rs/src/parser/*.rs", "ifc_rs/src/meta/datamap/deserialize.rs", "ifc_rs/src/meta/header/deserialize.rs", "ifc_rs/src/lib.rs: IFC::parse, FromStr", "ifc_rs/src/**: IFCParse impls of all kinds"]}
{"id": "C65", "title": "The order and the layout of a file do not matter", "statement": "Two well-formed files with the same header that give, for every id, the same last object text load with the same result, be it a model, an error or a panic. So lines with different ids may be permuted, definitions that are overridden later can be left out, and white space, comments and the spelling of the header can be changed, without any effect.", "quantifier": "all pairs of well-formed files, all behaviours of the time library", "why_tests_cant": "the number of orders is factorial; forward references are rare in samples written by one exporter", "anchors": ["ifc_rs/src/meta/datamap/deserialize.rs", "ifc_rs/src/lib.rs: FromStr", "ifc_rs/src/meta/datamap/mod.rs"]}
{"id": "C66", "title": "Editing a loaded file touches only what is edited", "statement": "If a file is loaded, edited with constructors, setters, insertions and exchanges of objects in place, and saved, then it loads again: the header and all ids are there, new objects have the next ids, no object changes its kind, and every object that was not exchanged is what it is after saving and loading without editing; in the saved text its line is the same and stands in front of the new lines. Removing an object gives a file that loads exactly if no other object is checked for it, otherwise loading panics; replacing one gives a file that loads exactly if the new object fits, otherwise loading fails with an error.", "quantifier": "all files, all well-typed editing programs, all objects", "why_tests_cant": "programs and files are unbounded; the effect of one edit on all other lines is a statement about every file", "anchors": ["ifc_rs/src/lib.rs", "ifc_rs/src/meta/datamap/mod.rs", "ifc_rs/src/meta/datamap/serialize.rs", "ifc_rs_verify_derive/src/field.rs"]}
{"id": "C67", "title": "Lines have the declared attributes, and references are checked as declared", "statement": "For every kind of object, the line in a file has exactly one value for each field of the Rust struct, in the order of the declaration, with the fields of embedded structs in their place, and each value has a text of the declared type (OptionalParameter: a place holder or a value; IfcList: a list in brackets; IdOr: an id or a whole object; enumerations: one of their words). Such a line is read as these values, and whatever is read has values of these types. A file that is read completely is loaded if and only if every reference in a field that is declared with TypedId<T>, with IdOr<T> or with ifc_types(T1, T2, ..), and that is reached through inherited structs only, leads to an object of one of these types or to one the library does not know.", "quantifier": "all 75 kinds, all values of the declared types, all texts of lines, all gaps, all files", "why_tests_cant": "Declaration, reader, writer and checks of a struct are four separate pieces of code; a swapped pair of optional fields of the same kind of text, a check that accepts one type too many, or a field that may not be omitted shows up only for particular values of one of 75 structs.", "anchors": ["ifc_rs/src/objects/shared/product.rs:29", "ifc_rs/src/relations/rel_aggregates.rs:21", "ifc_rs/src/id/id_or.rs:60", "ifc_rs_verify_derive/src/lib.rs:44", "ifc_rs_verify_derive/src/field.rs:78"]}
{"id": "C68", "title": "Constructors and setters take what their signatures declare", "statement": "For every public constructor and setter, a call is possible if and only if the arguments fit the Rust signature: values of the declared primitive or enumeration, for impl Into<IdOr<T>> an id or an object of T (of any struct that implements the trait, if T is a type parameter), for TypedId<T> and Id an id, none for Option, any number for iterators and vectors; a setter of a builder trait belongs to exactly the structs that implement the trait. A constructor makes an object of its own struct. A program of such calls on a sound model never fails, panics only if there are no ids left or a list to append to is the star, and otherwise has the effects of C53.", "quantifier": "all 65 constructors, all 98 setters, all arguments, all programs, all sound models", "why_tests_cant": "The bounds of the type parameters and the implementations of some twenty traits by 75 structs decide which of several thousand combinations compile; a missing or superfluous implementation changes this set and no test that compiles notices.", "anchors": ["ifc_rs/src/objects/shared/root.rs:52", "ifc_rs/src/traits/sub_types.rs:17", "ifc_rs/src/relations/rel_voids_element.rs:34", "ifc_rs/src/relations/rel_associates_material.rs:50", "ifc_rs/src/id/id_or.rs:42"]}
{"id": "C69", "title": "A saved file has one exact layout", "statement": "The text of a model is, character by character: ISO-10303-21;, HEADER;, the lines FILE_DESCRIPTION, FILE_NAME and FILE_SCHEMA with their attributes in the order view definitions and level, name, time, authors, organisations, preprocessor, system, authorisation, and schemas, ENDSEC;, an empty line, DATA;, one line #id= KEYWORD(attributes); for each object in the order of the map, ENDSEC;, an empty line and END-ISO-10303-21;. The time is written as year-month-dayThour:minute:second with leading zeros and without fraction, years outside of 0 to 9999 with a sign; each schema under its own name. There is no other text of this layout for the model, and a text of this layout loads as the model it shows (under the conditions of C16).", "quantifier": "all headers, all models of printable objects, all time stamps", "why_tests_cant": "Unbounded texts, lists and maps; printing and reading back does not notice a change that the reader tolerates (another schema name with the same value, a missing line break, attributes exchanged in writer and reader).", "anchors": ["ifc_rs/src/lib.rs:131", "ifc_rs/src/meta/header/serialize.rs:12", "ifc_rs/src/meta/datamap/serialize.rs:5", "ifc_rs/src/meta/footer/serialize.rs:5"]}
