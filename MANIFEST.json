{
 "claims": [
  {
   "property": "C01",
   "status": "proved",
   "theorems": [
    "C01_id_printed",
    "C01_id_round_trip",
    "C01_id_injective",
    "C01_id_out_of_range"
   ],
   "note": "Id::parse / Display; all 64-bit ids and all following texts."
  },
  {
   "property": "C02",
   "status": "proved",
   "theorems": [
    "C02_int_printed",
    "C02_int_round_trip",
    "C02_int_never_wraps",
    "C02_int_out_of_range"
   ],
   "note": "i64 attributes; out-of-range numerals rejected."
  },
  {
   "property": "C03",
   "status": "proved",
   "theorems": [
    "C03_enum_round_trip",
    "C03_enum_unambiguous",
    "C03_dimension_round_trip",
    "C03_bool_read",
    "C03_bool_printed"
   ],
   "note": "All enumerations used by any attribute of any kind, the dimension count and the three-valued boolean, with gaps and any following text."
  },
  {
   "property": "C04",
   "status": "proved",
   "theorems": [
    "C04_text_round_trip",
    "C04_text_round_trip_backslash",
    "C04_text_printed_without_specials",
    "C04_text_printed",
    "C04_apostrophe_lost",
    "C04_all_texts_refuted"
   ],
   "note": "Round trip for texts without apostrophe and backslash (and under a weaker condition); the unrestricted statement is refuted with witnesses."
  },
  {
   "property": "C05",
   "status": "proved",
   "theorems": [
    "C05_literal_preserved"
   ],
   "note": "All literals without apostrophe and raw special characters."
  },
  {
   "property": "C06",
   "status": "proved",
   "theorems": [
    "C06_guid_printed",
    "C06_guid_round_trip",
    "C06_guid_injective",
    "C06_literal_preserved_iff"
   ],
   "note": "All 16-byte GUIDs; literals preserved iff the first character is 0..3."
  },
  {
   "property": "C07",
   "status": "proved",
   "theorems": [
    "C07_optional_printed",
    "C07_value_no_marker",
    "C07_optional_round_trip",
    "C07_omitted_read",
    "C07_inherited_read"
   ],
   "note": "All optional attributes of all kinds. Reading '*' is the only source of the inherited marker except for the dimension count (C43)."
  },
  {
   "property": "C08",
   "status": "proved",
   "theorems": [
    "C08_list_read",
    "C08_list_round_trip"
   ],
   "note": "Lists of any length, with gaps, missing separator commas and a trailing comma."
  },
  {
   "property": "C09",
   "status": "proved",
   "theorems": [
    "C09_gap_skipped",
    "C09_gap_split",
    "C09_gaps_irrelevant",
    "C09_layout_read",
    "C09_gap_after_parenthesis_refuted"
   ],
   "note": "All kinds. The clause about a gap after the opening parenthesis is false for kinds whose keyword is parsed without gaps (refuted with a witness); for the others it is part of the layout relation."
  },
  {
   "property": "C10",
   "status": "proved",
   "theorems": [
    "C10_entity_round_trip",
    "C10_entity_round_trip_general",
    "C10_read_is_printable"
   ],
   "note": "All 75 kinds; general form for texts with backslashes and reals in scientific form."
  },
  {
   "property": "C11",
   "status": "proved",
   "theorems": [
    "C11_no_shadowing",
    "C11_dispatch",
    "C11_all_kinds_tried",
    "C11_lines_differ"
   ],
   "note": "All ordered pairs of kinds, any gaps and following text."
  },
  {
   "property": "C12",
   "status": "proved",
   "theorems": [
    "C12_unknown_read",
    "C12_unknown_round_trip",
    "C12_simple_opaque",
    "C12_kept_verbatim",
    "C12_semicolon_in_text_refuted"
   ],
   "note": "Any unknown text; the semicolon-in-text clause is shown by a witness."
  },
  {
   "property": "C13",
   "status": "proved",
   "theorems": [
    "C13_section_round_trip",
    "C13_section_round_trip_general",
    "C13_printed_in_order",
    "C13_opaque_printable",
    "C13_read_is_ordered"
   ],
   "note": "Maps of any size; unknown entities must be opaque (no gap-then-semicolon inside). General form without the condition on texts and reals."
  },
  {
   "property": "C14",
   "status": "proved",
   "theorems": [
    "C14_last_definition_wins",
    "C14_from_list"
   ],
   "note": "All definition sequences in any layout."
  },
  {
   "property": "C15",
   "status": "proved",
   "theorems": [
    "C15_header_round_trip",
    "C15_read_is_printable",
    "C15_fraction_lost"
   ],
   "note": "All headers with apostrophe-free texts and whole-second stamps; chrono enters as the hypothesis chrono_reads. Fractions of seconds are lost (C15_fraction_lost)."
  },
  {
   "property": "C16",
   "status": "proved",
   "theorems": [
    "C16_model_round_trip",
    "C16_model_round_trip_general",
    "C16_load_round_trip"
   ],
   "note": "All printable models; whole parser with end of input."
  },
  {
   "property": "C17",
   "status": "proved",
   "theorems": [
    "C17_save_after_load",
    "C17_second_save_is_stable",
    "C17_blank_before_semicolon_refuted",
    "C17_comment_sign_refuted"
   ],
   "note": "All accepted texts whose opaque lines stay opaque. Two violations outside these conditions proved with witnesses."
  },
  {
   "property": "C18",
   "status": "proved",
   "theorems": [
    "C18_form",
    "C18_real_plain",
    "C18_real_scientific",
    "C18_real_second_time",
    "C18_all_reals_refuted",
    "C18_plain_form",
    "C18_plain_fewest"
   ],
   "note": "Plain form exact; scientific form reads the nearest float to the printed decimal; second time stable; full round trip refuted by 0.12999999999999998."
  },
  {
   "property": "C19",
   "status": "proved",
   "theorems": [
    "C19_references_are_good"
   ],
   "note": "All texts."
  },
  {
   "property": "C20",
   "status": "proved",
   "theorems": [
    "C20_error_iff_misdirected",
    "C20_loads_iff_good"
   ],
   "note": "All texts that parse and have no dangling checked reference."
  },
  {
   "property": "C21",
   "status": "proved",
   "theorems": [
    "C21_panic_causes",
    "C21_dangling_panics",
    "C21_never_panics_refuted"
   ],
   "note": "Violation proved with three witnesses; the only causes of a panic are the three stated ones, for all texts."
  },
  {
   "property": "C22",
   "status": "proved",
   "theorems": [
    "C22_new_object",
    "C22_in_range",
    "C22_full"
   ],
   "note": "All maps; overflow modelled as failure (panic in debug, wrap-around in release builds)."
  },
  {
   "property": "C23",
   "status": "proved",
   "theorems": [
    "C23_refines",
    "C23_panics",
    "C23_extensional",
    "C23_contains"
   ],
   "note": "All operation programs refine a mathematical finite map; exact panic conditions."
  },
  {
   "property": "C24",
   "status": "proved",
   "theorems": [
    "C24_typed_lookup",
    "C24_otherwise_panic",
    "C24_search",
    "C24_search_ids"
   ],
   "note": "All maps and kinds."
  },
  {
   "property": "C25",
   "status": "proved",
   "theorems": [
    "C25_id",
    "C25_value"
   ],
   "note": "All maps, ids, values. or_insert itself; the setters that use it are covered with the builder."
  },
  {
   "property": "C26",
   "status": "proved",
   "theorems": [
    "C26_children",
    "C26_panic",
    "C26_loaded",
    "C26_determined"
   ],
   "note": "All ordered maps, all kinds; order and multiplicity included; panic exactly on a missing child; never after a successful load."
  },
  {
   "property": "C27",
   "status": "proved",
   "theorems": [
    "C27_contained"
   ],
   "note": "All ordered maps; order and multiplicity included."
  },
  {
   "property": "C28",
   "status": "proved",
   "theorems": [
    "C28_type",
    "C28_type_never_errs",
    "C28_openings",
    "C28_openings_panic",
    "C28_openings_loaded",
    "C28_layers",
    "C28_layers_panic",
    "C28_constituents",
    "C28_constituents_panic"
   ],
   "note": "All ordered maps; exact panic conditions; after a load the opening query panics exactly on openings of unknown kind."
  },
  {
   "property": "C29",
   "status": "proved",
   "theorems": [
    "C29_loads",
    "C29_loads_exactly",
    "C29_text_loads",
    "C29_apostrophe_refuted"
   ],
   "note": "All programs without shading devices: exact reload for exact reals and texts, reload up to printing otherwise, any oracle. C29_apostrophe_refuted shows the exclusion of apostrophes is needed."
  },
  {
   "property": "C30",
   "status": "proved",
   "theorems": [
    "C30_shading_devices_refuted",
    "C30_reason"
   ],
   "note": "The property is violated: proved that loading answers Err for every builder program with a shading device, and why."
  },
  {
   "property": "C31",
   "status": "proved",
   "theorems": [
    "C31_contained"
   ],
   "note": "For all programs, hash orders and identifiers: the pairs (storey, element) in containment relations are exactly those the calls created, each once."
  },
  {
   "property": "C32",
   "status": "proved",
   "theorems": [
    "C32_voids",
    "C32_fills"
   ],
   "note": "Void and fill relations are exactly the pairs the calls created, each once."
  },
  {
   "property": "C33",
   "status": "proved",
   "theorems": [
    "C33_types",
    "C33_spaces_untyped",
    "C33_all_types_refuted"
   ],
   "note": "Proved for every class with a type relation; spaces get none (C33_spaces_untyped), so the claim for all classes is refuted by a program."
  },
  {
   "property": "C34",
   "status": "proved",
   "theorems": [
    "C34_materials",
    "C34_one_association"
   ],
   "note": "Pairs (material, element or type) are exactly those created, and one association per class and material."
  },
  {
   "property": "C35",
   "status": "proved",
   "theorems": [
    "C35_tree",
    "C35_extracted"
   ],
   "note": "Aggregation relations are exactly the parent/child pairs of the calls, one relation per node; the extractor's queries return exactly these children (C35_extracted)."
  },
  {
   "property": "C36",
   "status": "proved",
   "theorems": [
    "C36_objects_stay",
    "C36_until_build",
    "C36_kinds",
    "C36_kinds_built",
    "C36_no_transform"
   ],
   "note": "Every object that exists after some calls exists after all further calls and in the built model with the same attributes except the list of representations of a product definition shape; without transforms the model only gets longer; returned ids keep the kind of the call's result type."
  },
  {
   "property": "C37",
   "status": "proved",
   "theorems": [
    "C37_made",
    "C37_built",
    "C37_determined"
   ],
   "note": "For all programs: every product gets, when it is made, the outline, direction and depth that its call and the layers of its material (found from the calls alone) ask for, also in the built model after the moves of later calls; the form is determined by the calls."
  },
  {
   "property": "C38",
   "status": "proved",
   "theorems": [
    "C38_drawn",
    "C38_representations_stay",
    "C38_until_build",
    "C38_journey",
    "C38_roles",
    "C38_storey_roles_refuted"
   ],
   "note": "For all programs: after any further calls every product has as many representations as before, each showing the earlier one in its place after exactly the moves asked for, in order, also in the built model; identifiers are kept by moves of walls and slabs; the storey's transform loses them (refuted with a witness)."
  },
  {
   "property": "C39",
   "status": "proved",
   "theorems": [
    "C39_moved",
    "C39_rest_stays",
    "C39_own_shapes"
   ],
   "note": "For all programs, hash orders: the call that finishes a wall or slab with a transform moves exactly the wall or slab, its openings and the windows in them, each once and relative to the place of the opening; every other object of the model stays as it is."
  },
  {
   "property": "C40",
   "status": "proved",
   "theorems": [
    "C40_paths",
    "C40_end_at_site",
    "C40_older",
    "C40_terminates",
    "C40_coordinates"
   ],
   "note": "Every product is placed relative to the product it was created in with decreasing placement ids up to the site created by an ONewSite call, which is absolute; every local placement is absolute or relative to an older one, so chains end; coordinates are those of the calls."
  },
  {
   "property": "C41",
   "status": "proved",
   "theorems": [
    "C41_order_irrelevant",
    "C41_identical_refuted"
   ],
   "note": "All programs under all pairs of oracles; values given by the caller (layer attributes, property values, person) must not contain ids other than the id arguments. Random identifiers, times and the running number in names of relations may differ. Equality without a renaming is refuted: the walk order decides which opening's moved representation gets which id."
  },
  {
   "property": "C42",
   "status": "proved",
   "theorems": [
    "C42_owner_of_products",
    "C42_owner_of_relations_refuted"
   ],
   "note": "Holds for products, types and projects for all texts; for relations and property sets every printable model accepts any owner history (violation)."
  },
  {
   "property": "C43",
   "status": "proved",
   "theorems": [
    "C43_dimension_kept",
    "C43_dimension_lost",
    "C43_dimension_cut",
    "C43_dimension_refuted"
   ],
   "note": "Violated claim: 1,2,3 kept, other numbers become '*' or are cut after the first digit; refuted by 0."
  },
  {
   "property": "C44",
   "status": "proved",
   "theorems": [
    "C44_measure_line_rejected"
   ],
   "note": "Violation proved for all such files: any definitions before, anything after, any gaps."
  },
  {
   "property": "C45",
   "status": "proved",
   "theorems": [
    "C45_context_loads",
    "C45_precision_loads",
    "C45_contents",
    "C45_precision",
    "C45_true_north",
    "C45_true_north_refuted"
   ],
   "note": "Violation proved for all models with a context with true north; contexts without it load."
  },
  {
   "property": "C46",
   "status": "proved",
   "theorems": [
    "C46_spellings",
    "C46_one_value",
    "C46_printed_name",
    "C46_schemas_round_trip"
   ],
   "note": "All texts without apostrophe."
  },
  {
   "property": "C47",
   "status": "proved",
   "theorems": [
    "C47_file_structure"
   ],
   "note": "All texts. A plane angle measure ends without a semicolon (C44), which the statement of the structure says."
  },
  {
   "property": "C48",
   "status": "proved",
   "theorems": [
    "C48_wall_enum_not_wall",
    "C48_wall_enum_refuted"
   ],
   "note": "Violated claim: proved for all walls that they are not read as walls; witness."
  },
  {
   "property": "C49",
   "status": "proved",
   "theorems": [
    "C49_reached",
    "C49_built",
    "C49_materials",
    "C49_project"
   ],
   "note": "For all programs and all oracles, during the program and in the built model: every value passed to a call is an attribute of the object it returned; layers and constituents have a material of the given name; the project carries the given data and units."
  },
  {
   "property": "C50",
   "status": "proved",
   "theorems": [
    "C50_relations",
    "C50_only",
    "C50_sets",
    "C50_heights",
    "C50_storey_refuted"
   ],
   "note": "For all programs: exact list of related pairs, exact contents of finished sets and of wall sets, elevations stored; the claim that the elevation is related to the storey is refuted with a witness."
  },
  {
   "property": "C51",
   "status": "proved",
   "theorems": [
    "C51_built",
    "C51_loaded"
   ],
   "note": "All programs; built models under any fair oracle; loaded models for programs without shading devices (C30). Order of lists up to the walk order where the builder walks a hash table, exact for layers and constituents."
  },
  {
   "property": "C52",
   "status": "proved",
   "theorems": [
    "C52_reads",
    "C52_panics",
    "C52_loaded_panics",
    "C52_built",
    "C52_items",
    "C52_context",
    "C52_shapes",
    "C52_built_shapes",
    "C52_unknown_profile_refuted",
    "C52_embedded_refuted",
    "C52_lines_refuted",
    "C52_reloaded"
   ],
   "note": "All well typed models. The claim of the code that kinds are already checked when it reads (unreachable!) is refuted: unknown profiles, embedded objects, empty or mixed polylines."
  },
  {
   "property": "C53",
   "status": "proved",
   "theorems": [
    "C53_effect",
    "C53_safe",
    "C53_loads",
    "C53_new_exact",
    "C53_set_exact",
    "C53_setters_commute",
    "C53_last_setter",
    "C53_declared",
    "C53_bounds_refuted",
    "C53_star_refuted"
   ],
   "note": "All programs of the 65 constructors and 98 setters, insertions and exchanges. The kinds the loader accepts are given exactly; that the type bounds suffice, and that setters never panic, is refuted."
  },
  {
   "property": "C54",
   "status": "proved",
   "theorems": [
    "C54_product_built",
    "C54_tour_built",
    "C54_reloaded",
    "C54_tour_loaded",
    "C54_walk_ends",
    "C54_items_end",
    "C54_cycle_refuted",
    "C54_wall_without_type_refuted"
   ],
   "note": "All builder programs, saved and loaded models, all models for termination. That every loaded model can be walked through is refuted: cyclic representations, walls without a type."
  },
  {
   "property": "C55",
   "status": "proved",
   "theorems": [
    "C55_words",
    "C55_all_enumerations",
    "C55_variant",
    "C55_other_words",
    "C55_left_out",
    "C55_standard_refuted",
    "C55_measures",
    "C55_all_kinds",
    "C55_keywords",
    "C55_standard_case_refuted"
   ],
   "note": "All 25 enumerations, 5 measures and 75 kinds. That all words of the standard are read, and that the standard cases keep their keyword, is refuted."
  },
  {
   "property": "C56",
   "status": "proved",
   "theorems": [
    "C56_determined",
    "C56_add",
    "C56_sub",
    "C56_mul",
    "C56_div",
    "C56_sqrt",
    "C56_add_special",
    "C56_mul_nan",
    "C56_mul_inf",
    "C56_div_nan",
    "C56_div_zero",
    "C56_div_inf",
    "C56_sqrt_nan",
    "C56_sqrt_zero",
    "C56_sqrt_inf",
    "C56_direction3",
    "C56_direction2",
    "C56_short_refuted",
    "C56_long_refuted",
    "C56_zero_refuted",
    "C56_built"
   ],
   "note": "All finite numbers for the operations; all vectors with largest component between 2^-400 and 2^400 for normalising; all programs. Shorter and longer vectors are refuted with witnesses. The root is characterised as a nearest number (a tie cannot occur)."
  },
  {
   "property": "C57",
   "status": "proved",
   "theorems": [
    "C57_settings",
    "C57_never_zero",
    "C57_directed",
    "C57_nan_refuted"
   ],
   "note": "All chains of setters, rotations being arbitrary functions. That only vectors with a direction become axes is refuted by NaN."
  },
  {
   "property": "C58",
   "status": "proved",
   "theorems": [
    "C58_direction",
    "C58_axis",
    "C58_right_angle",
    "C58_upright_refuted",
    "C58_thickness",
    "C58_centre"
   ],
   "note": "All programs that give directions of moderate size, all oracles. That every arbitrary wall has an axis is refuted by a wall extruded upwards."
  },
  {
   "property": "C59",
   "status": "proved",
   "theorems": [
    "C59_number",
    "C59_loss_refuted",
    "C59_model",
    "C59_load",
    "C59_directions",
    "C59_shapes"
   ],
   "note": "C59_number is about every number, C59_model and C59_load about every well-formed model, C59_directions and C59_shapes about every program without shading devices (C30 refutes loading for those). C59_loss_refuted shows that the bound cannot be improved to 0.4 10^-14: the program keeps fifteen digits. Texts: C04."
  },
  {
   "property": "C60",
   "status": "proved",
   "theorems": [
    "C60_drawn",
    "C60_unique",
    "C60_loaded",
    "C60_collision_refuted"
   ],
   "note": "All programs and all orders of hash tables; no collision is assumed only among the answers that are asked for. C60_collision_refuted shows that the builder does not compare identifiers itself."
  },
  {
   "property": "C61",
   "status": "proved",
   "theorems": [
    "C61_rows",
    "C61_kinds",
    "C61_opening",
    "C61_counted",
    "C61_empty_refuted"
   ],
   "note": "All programs and all orders of hash tables; the table TemplateSpec.v gives the rows of all 59 kinds. Values of the caller (organization, person, layer, property value and unit) are as in C49. C61_empty_refuted: relations without related objects are written, against the standard."
  },
  {
   "property": "C62",
   "status": "proved",
   "theorems": [
    "C62_builds",
    "C62_next",
    "C62_nested",
    "C62_reads",
    "C62_file_loads",
    "C62_foreign_panics"
   ],
   "note": "Programs of fewer than 2^28 calls whose texts have no apostrophe (op_ok, as in C29); typestate of the builders (which builder is the innermost, which methods it has) is the relation `after`. Profile and position of a solid, read along with its direction, are treated by C62_reads. C62_foreign_panics: an id the caller makes up panics."
  },
  {
   "property": "C63",
   "status": "proved",
   "theorems": [
    "C63_file",
    "C63_attribute",
    "C63_object",
    "C63_real",
    "C63_header",
    "C63_shared_backslash_refuted"
   ],
   "note": "Grammar of the text in SpellSpec.v, stated without the parsers; which attributes a kind has is the schema table. Two directives that share a backslash (…\\X0\\X2\\…) can be carried out in more than one way; str_text allows both. Time stamps of the header are as chrono (env) reads them."
  },
  {
   "property": "C64",
   "status": "proved",
   "theorems": [
    "C64_file",
    "C64_object",
    "C64_attribute",
    "C64_header",
    "C64_header_iff",
    "C64_header_unique",
    "C64_real_iff",
    "C64_real_unique",
    "C64_int_iff",
    "C64_id_iff",
    "C64_guid_iff"
   ],
   "note": "Well-formed texts in GramSpec.v: literals contain no apostrophe (the library knows no doubled ones), no gap before the closing semicolon of kinds whose parsers allow none (C17), integers and ids without leading zeros, time stamps within chrono's range. C63 and C64 together: on these texts the reader computes what the text spells."
  },
  {
   "property": "C65",
   "status": "proved",
   "theorems": [
    "C65_lines",
    "C65_order",
    "C65_overridden",
    "C65_layout"
   ],
   "note": "For texts whose objects are well formed (GramSpec.v). Gaps inside an object are covered by C09."
  },
  {
   "property": "C66",
   "status": "proved",
   "theorems": [
    "C66_edited",
    "C66_lines",
    "C66_removed",
    "C66_replaced"
   ],
   "note": "Programs of constructors, setters, insertions and exchanges in place (C53), and single removals and replacements, on a loaded model that can be saved again (the conditions of C17)."
  },
  {
   "property": "C67",
   "status": "proved",
   "theorems": [
    "C67_declared",
    "C67_unique",
    "C67_printed",
    "C67_read",
    "C67_values",
    "C67_well_formed",
    "C67_names",
    "C67_load"
   ],
   "note": "All 75 kinds. The declarations of the structs are taken from /repo by a script (names, order, types, ifc_types and inherited marks of the fields); the theorems say that reader, writer and checks of the model follow them. Single texts, numbers and identifiers are the matter of C01 to C06 and C18."
  },
  {
   "property": "C68",
   "status": "proved",
   "theorems": [
    "C68_every",
    "C68_new",
    "C68_made",
    "C68_set",
    "C68_new_asks",
    "C68_set_asks",
    "C68_runs"
   ],
   "note": "All 65 constructors and 98 setters of C53. Signatures and implementations of traits are taken from /repo by a script; the theorems say that the calls the model permits are those the Rust types permit (with ids of objects of the model), and C68_runs says what such calls do. Texts are those of C53, without apostrophe."
  },
  {
   "property": "C69",
   "status": "proved",
   "theorems": [
    "C69_saved",
    "C69_loaded",
    "C69_only",
    "C69_header",
    "C69_object",
    "C69_stamp",
    "C69_loads"
   ],
   "note": "Header, lines and end, character by character. chrono's %Y-%m-%dT%H:%M:%S and strum's Display of the schemas are modelled as documented. The texts of single attributes are those of C67 (and C01 to C06, C18); objects of known kinds must be printable in the sense of C10, which holds for whatever was loaded."
  }
 ]
}