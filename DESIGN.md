# Formal model of ifc_rs

The subject is the Rust crate `ifc_rs` (reader, writer, data map, reference
verification, extractor and builder for IFC/STEP files) in `/repo`.  The code is
read as text only.  The model is written in Rocq (Coq 8.16.1) under
`rocq/theories`, logical name `Verif`, using the standard library only.

The properties are in `properties.jsonl`, the theorems for each of them in
`MANIFEST.json`, experiments with wrong programs in `seeded/LOG.jsonl`.

## 1. How the model is organised

Four sorts of files: *model* (definitions that follow the code, each citing its
lines), *spec* (predicates the theorems are stated with, independent of the
model's functions), *facts* (proofs) and `P_*.v` (the property theorems, each closed
by `exact`, with its `Print Assumptions` and an example beside it).

| file | sort | contents |
|------|------|----------|
| `Base.v` | model | Rust `str`, winnow 0.6 combinators: success with remaining text, backtrack, cut, panic |
| `Prims.v` | model | `parser/*.rs`, `id/plain.rs`: gaps, ids, integers, booleans, strings and their encoding, lists, optional parameters |
| `Guid.v` | model | `id/ifc_uuid.rs`: base-64 codec of 16 bytes |
| `Float.v` | model | `parser/real.rs`, `f64` printing and reading |
| `Kind.v` | model | the 75 entity kinds and the kind of unknown lines |
| `Types.v`, `Schema.v` | model | generic attribute reader/writer; one table row per kind of `objects`, `geometry`, `relations`, `materials`, `properties`, `units`, `values`: keyword, gaps, attribute types, `#[ifc_types]` |
| `Entity.v` | model | reading with dispatch, printing, references (`ifc_rs_verify_derive`, `meta/datamap/deserialize.rs`, `parser/dummy.rs`) |
| `DataMap.v` | model | `meta/datamap/*.rs`, `id/id_or.rs` |
| `Header.v`, `File.v`, `Context.v` | model | `meta/header`, `meta/footer`, `lib.rs` (`IFC::from_str`, `Display`, verification); `GeometricRepresentationContext` constructors |
| `Extractor.v` | model | `ifc_extractor/mod.rs` and the query methods it calls |
| `Arith.v` | model | binary64 `+ - * / sqrt`, sums, the `glam` vector operations the builder uses |
| `Builder.v`, `BuilderRun.v` | model | `ifc_builder/*.rs` and all constructors it calls; programs = arbitrary sequences of builder calls, scopes, `Drop`s |
| `Spec.v`, `Layout.v`, `WellTyped.v`, `EntitySpec.v`, `DataSpec.v`, `HeaderSpec.v`, `FileSpec.v`, `ExtractorSpec.v`, `BuilderSpec.v`, `BuilderLoadSpec.v`, `HistorySpec.v`, `MoveSpec.v`, `TextSpec.v`, `GivenSpec.v`, `FormSpec.v` | spec | gaps; texts that stand for a value; values of a type; data lines; finite maps; headers; references; queries; what calls ask for; which arguments survive printing; histories and placements; moves; how texts are written in ASCII; what is stored of arguments; thicknesses and shapes |
| `BaseFacts.v`, `PrimsFacts.v`, `StringFacts.v`, `TextFacts.v`, `GuidFacts.v`, `RoundFacts.v`, `FloatFacts.v`, `TypesFacts.v`, `TypesFacts2.v`, `EntityFacts.v`, `AttrFacts.v`, `WallFacts.v`, `DataMapFacts.v`, `SectionFacts.v`, `HeaderFacts.v`, `PanicFacts.v`, `FileFacts*.v`, `ExtractorFacts.v`, `ArithFacts.v` | facts | as named |
| `BuilderBase.v`, `BuilderGrow.v`, `BuilderRel.v`, `BuilderRel2.v`, `BuilderEmit.v`, `BuilderInv.v`, `BuilderStep.v`, `BuilderAll.v`, `BuilderIds.v`, `BuilderOut.v` | facts | the relations a program leaves |
| `BuilderAny.v`, `BuilderGood*.v`, `BuilderLoad.v` | facts | every object made is well typed and its references are good, so the output loads again |
| `BuilderHist.v`, `BuilderPlace.v`, `BuilderKeep.v` | facts | what single calls create, placements, histories |
| `BuilderMove*.v` | facts | what transforms do to the representations of products |
| `BuilderGiven.v`, `BuilderGiven2.v` | facts | what calls store of their arguments; property sets |
| `BuilderForm.v`, `BuilderForm2.v` | facts | which shapes products get |
| `Mapping.v` | model | `mappings()` of geometry, `PolyLine::points`, `ShapeRepresentation::items`, `items_of`, `parent_context`, `Product::shapes` |
| `MapSpec.v` | spec | what geometric objects say, which objects are needed to read one |
| `MappingFacts.v`, `MappingFacts2.v`, `MappingBuilt.v` | facts | reading any, loaded and built models |
| `Api.v` | model | 65 public constructors and 98 public setters as tables, programs of constructors, setters, insertions and exchanges |
| `ApiSpec.v` | spec | attributes by name, initial values, declared and accepted kinds of references, effects |
| `ApiFacts.v` … `ApiFacts6.v`, `ApiExample.v` | facts | programs keep models sound; what the loader refuses; order of setters; refusals against the declarations |
| `Walk.v` | model | `examples/extractor.rs`: the walk from the projects down to the items of representations; `to_structure`, `structure_type` |
| `WalkSpec.v` | spec | what the walk meets, in terms of builder calls; nesting of representations |
| `WalkFacts.v` … `WalkFacts3.v`, `WalkNorm.v` | facts | built models; saved and loaded models; which walks end |
| `NameSpec.v` | spec | names and words of enumerations, measures and kinds, from the declarations in `/repo`; words of the standard that are missing |
| `NameFacts.v` | facts | the tables of the model against these |
| `ArithSpec.v`, `DirSpec.v` | spec | values of numbers as fractions, nearest numbers, length and direction of vectors; vectors given by programs |
| `ArithRound.v`, `ArithSpecial.v`, `ArithUnit.v`, `BuilderDirs.v`, `DirFacts.v` | facts | operations are correctly rounded; infinities, zeros, NaN; normalised vectors; directions of built models |
| `GeoSpec.v` / `GeoFacts.v` | spec / facts | where products are extruded to and how thick they are, in exact numbers |
| `AccSpec.v` / `AccFacts.v` | spec / facts | what may become of numbers, models and shapes by saving and loading |
| `UniqueSpec.v` / `BuilderUnique.v` | spec / facts | identifiers of built models are drawn, each used once |
| `TemplateSpec.v` / `BuilderTemplate.v` | spec / facts | the table of rows of built objects, and that every object has one |
| `NumberSpec.v` / `BuilderNumber.v` | spec / facts | the numbers in the names of relations count from zero |
| `ProgressSpec.v` / `BuilderSafe.v`, `BuilderSafe2.v`, `BuilderSafe3.v`, `BuilderProgress.v` | spec / facts | which programs compile and take their own ids; that such calls return, and how many objects they insert at most |
| `SpellSpec.v` / `SpellFacts.v`, `SpellHead.v` | spec / facts | the grammar of attributes, objects, data sections, headers and files, and that what is read is spelled |
| `GramSpec.v` / `GramFacts.v`, `GramHead.v` | spec / facts | the well-formed texts of attributes, objects, data sections and files, and that they are read |
| `RoundUnique.v`, `SpellIff.v` | facts | a number is rounded to one number only; a text is read as a real, an integer, a reference or an identifier exactly if it spells it |
| `LinesSpec.v` / `LinesFacts.v` | spec / facts | files as lists of object texts; the model as a function of the last text of each id |
| `EditSpec.v` / `EditFacts.v` | spec / facts | what editing programs, removals and replacements leave of a loaded model and of its text |
| `DeclSpec.v` / `DeclFacts.v`, `DeclNames.v` | spec / facts | the structs of /repo as they are declared; the lines and the checks that follow from this, and the names used in C53 |
| `SigSpec.v` / `SigFacts.v` | spec / facts | the signatures of constructors and setters and the implementations of traits as they are written in /repo; which calls they permit |
| `LayoutSpec.v` / `LayoutFacts.v` | spec / facts | the text of a saved file, character by character |
| `RealForm.v` | facts | the form of printed reals: no superfluous zeros, as few digits as possible |
| `ContextFacts.v` | facts | what the constructors of representation contexts store |
| `Params.v` | model | `TransformParameter` and its setters |
| `ParamsSpec.v` / `ParamsFacts.v` | spec / facts | which vector a chain of setters leaves |
| `Replay.v` | tests | the repository's own tests replayed on the model; no property uses it |
| `ExtractSpec.v` | spec | answers of the extractor in terms of builder calls |
| `BuilderRead.v`, `BuilderRead2.v` | facts | shape of relations, queries on built and loaded models |
| `OrderSpec.v` | spec | two models that are the same up to a renaming of ids |
| `BuilderOrder.v` … `BuilderOrder7.v` | facts | simulation between two runs of one program |
| `StrictTime.v`, `BuilderExample.v` | examples | a time-stamp reader and a program for the examples |
| `P_Prims.v`, `P_Attrs.v`, `P_Entity.v`, `P_Data.v`, `P_Header.v`, `P_File.v`, `P_Extractor.v`, `P_Builder.v`, `P_Load.v`, `P_Place.v`, `P_Move.v`, `P_Given.v`, `P_Form.v`, `P_Order.v`, `P_Extract.v`, `P_Mapping.v`, `P_Api.v`, `P_Walk.v`, `P_Names.v`, `P_Dirs.v`, `P_Params.v`, `P_Geo.v`, `P_Acc.v`, `P_Unique.v`, `P_Template.v`, `P_Progress.v`, `P_Spell.v`, `P_Gram.v`, `P_Lines.v`, `P_Edit.v`, `P_Decl.v`, `P_Sig.v`, `P_Layout.v`, `P_Real.v` | theorems | see `MANIFEST.json` |

### Representation decisions

* A Rust `&str` is a `list N` of Unicode scalar values.
* An `f64` is NaN, an infinity or sign, mantissa and binary exponent.
* A panic (`unwrap`, missing id, `unreachable!`) is an explicit result value, never a default.
* `BTreeMap<Id, Box<dyn IfcType>>` is an association list sorted by id.
* An entity is its kind and the list of its attribute values; the kind selects a
  row of the schema table.  This replaces one Rust struct with one `IFCParse` and
  one `Display` implementation per kind; the implementations are uniform and the
  table row records keyword, attribute order, gaps and `#[ifc_types]`.
* A builder call is a function from the builder's state to a value and a new state,
  or a panic.  Random identifiers, the clock and the iteration order of
  `HashMap`/`HashSet` come from an oracle that can answer anything; where a theorem
  needs that a walk over a hash table visits each entry once, it says `fair o`.
* A program is a list of calls.  A call that does not fit the builders that are
  alive, which the borrow checker refuses, is `Err`.  Leaving a scope is a call.

## 2. Plan per property

| id | modelled | proof |
|----|----------|-------|
| C01 | `Id::parse`/`Display` on texts | decimal digits round trip, by induction on digits |
| C02 | `dec_int` for i64 | same, with sign and range check |
| C03 | all enumeration tables | boolean prefix-freeness check over the finite tables lifted to all following texts |
| C04 | `encode`/`decode`/quoting | decode after encode is the identity without backslash; refutations by witness |
| C05 | the same | encode after decode is the identity without raw specials: induction over replacements |
| C06 | GUID codec | arithmetic on 6-bit digits |
| C07 | `OptionalParameter` | first character analysis of all printed values |
| C08 | `IfcList` | induction on the list |
| C09 | whitespace skipper; layouts of entities | inductive layout relation, induction |
| C10, C11 | all entity kinds | generic round trip over attribute types, table checks by computation |
| C12 | `Dummy` | induction on the text |
| C13, C14 | data section | induction over lines |
| C15, C46 | header | round trip with character conditions; finite schema names |
| C16, C17, C47 | whole file | composition |
| C18 | binary64 printing and reading | error bounds with integer arithmetic; fewest digits by convexity of the rounding interval |
| C19, C20, C21, C42 | derived verification | induction over attributes; witnesses for violations |
| C22-C25 | data map | refinement to a finite map |
| C26-C28 | extractor | characterisation of the returned lists |
| C29, C30 | builder programs, printing, loading | every object made is well typed and its references good (invariant over programs), composed with C16 and C20 |
| C31-C35 | relations left by builder programs | the multiset of pairs related equals the multiset asked for by the calls: invariant that counts pairs in tables and relations |
| C36 | histories | a preorder on states kept by every call |
| C37 | shapes made by calls; thicknesses computed from the calls alone | inversion of single calls, invariant that ties usages, layer sets and layers to the calls that made them, the preorder of C36 for the rest of the program |
| C38, C39 | transforms | exact effect of a transform on shapes; invariant that ties the builder's tables to the calls |
| C40 | placements | invariant over programs, well-founded descent along ids |
| C41 | programs under two oracles (random identifiers, clock and walks all different) | simulation: a relation between project states up to a one-to-one renaming of ids is kept by every call; steps of one walk are swapped pairwise by composing renamings |
| C43-C45 | dimension count, plane angle, true north | witnesses and general statements |
| C48 | walls with an enumeration literal | no text of a wall with an enumeration value is read as a wall |
| C49, C50 | arguments of builder calls, property sets | inversion of single calls, stability under the preorder of C36, induction over programs |
| C51 | extractor on models built and loaded | shape invariant of relations, then C31-C36, C49 and C29 composed |
| C52 | `Mapping.v`: reading geometric objects | by cases on kinds, level by level; loaded models through C19; built models through the invariant of C29 |
| C53 | `Api.v`: constructors, setters, insertions | tables checked against the schema and against the declared attributes (`C53_declared`) by computation, invariant of worlds (registers and model) by induction over programs; loading through C19, C20 |
| C54 | `Walk.v`: the walk of `examples/extractor.rs` | C31-C36, C38, C49, C51 composed product by product and storey by storey; change of reals commutes with every function of the walk; well-founded induction on nesting |
| C55 | words of enumerations, measures, kinds | tables compared with the declarations by computation; reading and printing for any gaps and contents through C03, C10 |
| C56 | `Arith.v`, `direction/mod.rs`, builder programs | integers against fractions for each operation (nearest number, ties); relative errors added up through dot product, root, quotient and product; an invariant of all directions over programs |
| C57 | `Params.v` | induction over the chain of calls |
| C58 | the forms of C37 | error bounds of C56 through cross product, difference and repeated normalising; induction over layers; composed with C37 |
| C59 | printing and reading of numbers (C18), whole files (C16), built models (C29) | the number read is nearest to what was printed, so the error at most doubles; induction over types and models; composed with C37, C56, C58 |
| C60 | every draw of an identifier in the builder, the objects it is put into and the table of associations | an account of drawn and stored identifiers kept by every call: each draw is stored exactly once, later draws are larger; `build` moves the table into the map |
| C61 | everything the builder inserts, changes and moves from the table of associations | the table `template` is written from the constructors the builder calls; that each object has a row of its kind is carried by the invariant of C29 (`good_ent`) through every call; the fifteen first objects are computed for any oracle and input; only `IfcProjectBuilder::new` makes their kinds; numbers in names: an invariant of the map that says which word its last object may have |
| C62 | all calls of the builder, `Drop` impls, `build`; which builder is innermost and which methods it has is a small typestate relation (`after`), as the borrow checker and the types of the code enforce it | total correctness logic `safe A n c P`: in a state with invariant `A`, `c` returns, inserts at most `n` objects and gives `P`; the lookups succeed by the invariants of C29, C36 and C38; counters stay below `usize::MAX` because `n` calls insert at most 100 + 100n + 150n² objects |
| C63 | all readers of the model: primitives, attributes, rows, objects, lines, header, file | induction on attribute types and on the text; numerals by the correctness of rounding (C55), identifiers by a number equation between base 64 and base 256, literals by a lemma that replacing leaves no directive |
| C64 | as C63; well-formed texts are an inductive definition that mentions no values | mutual induction on the derivation: the attribute parsers read before any text that may follow; the dispatch between kinds by comparing the keywords of all pairs of kinds; the value read is what is spelled by C63 |
| C65 | as C64 | the lines are read as a map of a function of their texts; the map from ids is determined by its lookups (C23) |
| C66 | as C17, C23 and C53 | invariant of editing programs: keys grow at the end, objects that are not exchanged stay; removals and replacements by the cases of C20 and C21 |
| C67 | schema table (`Schema.v`), reader, writer, `verify_all` | the rows of the model computed from the table of declarations (`DeclSpec.v`) and compared; then induction on Rust types |
| C68 | constructors and setters (`Api.v`) | the parameters of the model computed from the table of signatures (`SigSpec.v`) and compared; inversion on types; programs by C53 |
| C69 | `Display` of `IFC`, `Header`, `DataMap`, `Footer` | a relational description of the text (`LayoutSpec.v`), shown to be the graph of `save` by induction on lists and on decimal notation |

All 69 properties are expressible.

## 3. Trusted base

* Coq's kernel.  `Print Assumptions` lists *nothing* for any property theorem
  ("Closed under the global context"): no axiom, of the standard library or own.
* The model's faithfulness to `/repo`: every definition cites the lines it models.
* Behaviour of external crates, as assumed in the model:
  * winnow 0.6: `take_while`, `take_until`, `alt` (next alternative on backtrack
    only), `repeat`/`separated` (stop at a backtrack; a parser that consumes nothing is
    an error), `dec_int`, `float`, `delimited`, `opt` (`Base.v`);
  * `strum` spellings of enumerations (read off the attributes in `/repo`); the words of the
    standard in `left_out` are from ISO 16739 and not in `/repo`;
  * Rust `str` functions, `f64` printing (`{}` shortest that reads back, `{:.14E}`) and
    parsing (correctly rounded), `usize` = 64 bits (`Float.v`, `Prims.v`);
  * `BTreeMap` order; `HashMap` walks are arbitrary (oracle);
  * `chrono`: reading RFC 3339 stamps and `char::is_alphanumeric` beyond ASCII are
    oracles (`env` in `Header.v`); what the theorems need of them is the hypothesis
    `env_ok` in `HeaderSpec.v`, which `StrictTime.v` shows to be satisfiable;
  * `glam`/`bevy_math`: dot, length, normalisation and cross products by the
    formulas of the crate, over IEEE 754 binary64 operations (`Arith.v`, which C56 shows to be rounded to
    nearest even); a rotation by a quaternion is any function on vectors (`Params.v`);
  * `uuid` v4: any 16 bytes;
  * `downcast_rs`: a downcast succeeds exactly for the object's own type.

### Modelled

`parser/`, `id/`, `meta/`, `lib.rs` (text in, text out, verification), all entity
kinds in `objects/`, `geometry/`, `relations/`, `materials/`, `properties/`, `units/`,
`values/` (attributes, reading, printing, references), `ifc_rs_verify_derive`,
`ifc_extractor/`, `ifc_builder/` with the constructors it calls.

### Not modelled

* Files: `IFC::from_file`, `to_file`, the I/O errors (the text itself is modelled).
* `serde` implementations; `examples/` other than `extractor.rs`, of which the walk is
  modelled and the layout of the lines it prints is not; `tests/`.
* In the builder's use of `mappings()` for the direction of a product the lookups of
  profile and position that are not used are left out; they never panic on built
  models (`C52_built`).  `mappings()` itself is modelled in `Mapping.v`.
* Of constructors and setters (`Api.v`): assignments to public fields other than whole
  values of types without constructor; the move of a value into a setter (a register
  may be used again, as if cloned); that the points of one `PolyLine` have one type.
* Memory exhaustion, stack depth and time.

### Checked against the program

Nothing below is a proof, and no theorem depends on it; it tests the assumption that the
model is faithful.  The program was not run.  What it does is taken from the records
in `/repo`: the assertions of its tests, and the snapshot of `tests/insta.rs`.

* `Replay.v` (part of the build): the round-trip and parsing tests that stand beside
  the types, 134 lines of `AC20-FZK-Haus.ifc` with the lines the snapshot has for them,
  `wall-standard-case.ifc` loaded and saved, the lookups of `print_wall_hierarchy`.
  The one test that the repository ignores (`measure_with_unit_round_trip`) fails in
  the model too.
* `validate/replay.sh` (not part of the build, about ten minutes): the model extracted
  to OCaml loads and saves the whole of `AC20-FZK-Haus.ifc`.  What it prints is
  identical to the snapshot, all 44260 lines.

## 4. Findings

Violations of the stated properties that are proved for the model, with the theorem.

| property | finding | theorem |
|---|---|---|
| C04 | A text with an apostrophe is printed unescaped and cannot be read back | `C04_apostrophe_lost`, `C04_all_texts_refuted` |
| C06 | A GUID literal survives only if its first character is one of `0`..`3` | `C06_literal_preserved_iff` |
| C09 | A gap after the parenthesis is refused for kinds with a bare keyword | `C09_gap_after_parenthesis_refuted` |
| C12 | A semicolon inside a quoted text cuts an unknown line in two | `C12_semicolon_in_text_refuted` |
| C15 | Fractions of a second in the header's time stamp are lost | `C15_fraction_lost` |
| C17 | Saving after loading can revive an object that was kept as unknown line (blank before the semicolon), or lose one (comment sign in an unknown line) | `C17_blank_before_semicolon_refuted`, `C17_comment_sign_refuted` |
| C18 | Reals printed in scientific notation lose digits | `C18_all_reals_refuted` |
| C21 | Loading panics on dangling references, far time stamps, bad header stamps | `C21_panic_causes`, `C21_dangling_panics`, `C21_never_panics_refuted` |
| C22 | `insert_new` overflows after the largest id | `C22_full` |
| C28 | `related_voids` panics on a loaded file if the opening is of unknown kind | `C28_openings_panic` |
| C29 | A name with an apostrophe makes the built object an unknown line | `C29_apostrophe_refuted` |
| C30 | Every built project with a shading device is refused by the loader | `C30_shading_devices_refuted`, `C30_reason` |
| C33 | Types of spaces are never related | `C33_spaces_untyped`, `C33_all_types_refuted` |
| C38 | `transform` of the storey calls every representation of the product `Body`; the `Axis` of a wall is lost as such | `C38_storey_roles_refuted` |
| C41 | Which object gets which id depends on the order of hash tables: two runs with equal identifiers and times give different files | `C41_identical_refuted` |
| C42 | The owner history of relations is not verified | `C42_owner_of_relations_refuted` |
| C43 | A dimension count other than 1, 2, 3 is lost or cut | `C43_dimension_lost`, `C43_dimension_refuted` |
| C44 | A plane angle measure printed with `;` is unreadable | `C44_measure_line_rejected` |
| C45 | A context with true north cannot be loaded | `C45_true_north_refuted` |
| C48 | A wall with an enumeration literal as type is never read as a wall | `C48_wall_enum_not_wall`, `C48_wall_enum_refuted` |
| C50 | The set with the elevation of a storey is related to nothing, so the storey has no properties | `C50_storey_refuted`, `C50_only` |
| C52 | A file with a profile (curve, axis, transform) of a kind the library does not know loads, then reading the solid reaches `unreachable!("already checked by type checker")` | `C52_unknown_profile_refuted` |
| C52 | References inside embedded objects are not checked when loading; reading them panics | `C52_embedded_refuted` |
| C52 | Empty polylines and polylines with points of both dimensions load, reading them panics | `C52_lines_refuted` |
| C53 | Spaces and shading devices in `RelContainedInSpatialStructure`, and other kinds the type bounds of relations admit, are refused by the loader | `C53_bounds_refuted`; all of them: `C53_new_exact`, `C53_set_exact` with `refused`, `refused_set` |
| C53 | `add_role`, `add_address`, `add_middle_name` and the like panic if the attribute was read as `*` | `C53_star_refuted` |
| C54 | A file in which a shape representation is shown within itself loads; walking through it never ends (the stack overflows) | `C54_cycle_refuted` |
| C54 | A wall without a type loads; the walk panics at it | `C54_wall_without_type_refuted` |
| C55 | Words of the standard are refused, so lines with them are kept as unknown: `.HECTO.`, `.FREQUENCYUNIT.`, `.COULOMB.` (the library has `.COULOUMB.`), six `.ELECTRIC…UNIT.` (`.ELCTRIC…`), `.COMMISSIONINGENGINEER.` (`.COMISSIONENGINEER.`) | `C55_left_out`, `C55_standard_refuted` |
| C55 | `ShadingDeviceTypeEnum::Parking` is written `.JALOUSIE.` | `misnamed` in `C55_words` |
| C55 | `IFCWALLSTANDARDCASE` and the like are written without `STANDARDCASE` after loading | `C55_standard_case_refuted` |
| C56 | `Direction3D::from` of a vector shorter than `2^-537` has infinite or NaN components, of one longer than `2^512` it is zero; nothing is refused | `C56_short_refuted`, `C56_long_refuted`, `C56_zero_refuted` |
| C63 | a literal in which two directives share a backslash (`\X2\00C4\X0\X2\00E4\X0\`) has two readings; the order of the replacements decides, C63 allows both | `C63_shared_backslash_refuted` |
| C57 | The axis setters of a transform pass over the zero vector only; NaN becomes an axis | `C57_nan_refuted` |
| C58 | The axis of an arbitrary wall that is extruded upwards is a line to a point of NaN | `C58_upright_refuted` |
| C59 | Numbers with more than ten non-zero digits in the fraction lose digits: up to `0.4 10^-14` of the number and more | `C59_loss_refuted` |
| C60 | The builder does not compare identifiers: if the generator repeats itself the model has two objects with the same one | `C60_collision_refuted` |
| C61 | A storey without elements or spaces is written with relations to no object, which the standard does not allow | `C61_empty_refuted` |
| C61 | Property sets, their relations and the links of the spatial structure have no owner history, all other objects with identifiers have | rows of `template`, `C61_rows` |
| C62 | `TypedId` values can be made from any number; the builder panics if such an id does not exist or is of another kind | `C62_foreign_panics` |

## 5. Print Assumptions

Each `P_*.v` prints the assumptions of each of its theorems at build time.  For all of
them the answer is `Closed under the global context`.
