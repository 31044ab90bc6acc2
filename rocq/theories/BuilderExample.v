(** A program that uses the builder, for the examples beside the theorems. *)

From Coq Require Import String Ascii List NArith ZArith Bool.
From Verif Require Import Base Prims Float Arith Kind Types Schema Entity DataMap Extractor Header File
  Builder BuilderRun.
Import ListNotations.
Open Scope N_scope.

(** An oracle that walks hash tables backwards. *)
Definition guid1 (t : nat) : list N := [1; 2; 3; 4; 5; 6; 7; 8; 9; 10; 11; 12; 13; 14; 15; N.of_nat t mod 256].
Definition oracle1 : oracle := mk_oracle guid1 (fun _ => 1700000000%Z) (fun _ l => rev l) true.
(** And one that walks them forwards. *)
Definition oracle2 : oracle := mk_oracle guid1 (fun _ => 1700000000%Z) (fun _ l => l) true.

Definition info1 : info :=
  mk_info [VOmit; VStr (lit "Dev"); VOmit; VOmit; VOmit] (lit "1") (lit "app") (lit "a")
    [VOmit; VStr (lit "P"); VOmit; VOmit; VOmit; VOmit; VOmit; VOmit] (lit "Org") (lit "Proj").
Definition stamp1 : stamp := mk_stamp 2024 1 2 3 4 5 0.

Definition f_two : f64 := fadd f_one f_one.
Definition layer1 : list val := [VOmit; VReal f_half; VBool BFalse; VOmit; VOmit; VOmit; VOmit].
Definition move1 : tparam := mk_tparam v_y v_x v_y v_z.

(** A site with a building with a storey: materials and types, a wall with an opening
    and a window that is moved, a second wall, a slab with a window, a roof, two
    spaces, a set of properties; a second storey with nothing in it. *)
Definition ops1 : list op :=
  [ ONewSite (lit "site") v_zero; ONewBuilding (lit "house") v_x; ONewStorey (lit "ground") f_one
  ; OLayer (lit "brick") layer1; OLayer (lit "wood") layer1; OMaterial (lit "air")
  ; OLayerSet [31; 33]; OUsage 35 1 0 f_zero; OConstituent (lit "glass") (lit "frame"); OConstituentSet [38]
  ; OType CWall 35 (lit "wt") 11; OType CSlab 35 (lit "st") 0; OType CRoof 35 (lit "rt") 0
  ; OWindowType (lit "wit") 0 0; OSpaceType (lit "spt") 0
  ; OWall 36 40 (lit "w1") (WVertical f_two f_one) v_x
  ; OWallOpening (lit "hole") f_half f_half v_x v_z
  ; OWallWindow 39 43 (lit "win") f_half f_half v_x v_z
  ; OWallProps (lit "facts"); OProperty (lit "external") (VMeasure 0 (VBool BTrue)) None; ODrop
  ; OTransform move1; ODrop
  ; OWall 36 40 (lit "w2") (WVerticalArbitrary [(f_zero, f_zero); (f_one, f_zero); (f_one, f_one)]) v_y; ODrop
  ; OSlab 36 41 (lit "floor") (SHorizontal [(f_zero, f_zero); (f_two, f_zero); (f_two, f_two)]) v_zero
  ; OSlabWindow 39 43 (lit "hatch") (PRect f_half f_half v_x); ODrop
  ; ORoof 36 42 (lit "top") [(f_zero, f_zero); (f_two, f_zero); (f_two, f_two)] v_z
  ; OSpace 44 (lit "kitchen") [(f_zero, f_zero); (f_one, f_zero); (f_one, f_one)] f_two v_zero
  ; OSpace 44 (lit "hall") [(f_zero, f_zero); (f_one, f_zero); (f_one, f_one)] f_two v_x
  ; ODrop; ONewStorey (lit "attic") f_two; ODrop; ODrop; ODrop ].

(** The same with a shading device. *)
Definition ops_shading : list op :=
  [ ONewSite (lit "site") v_zero; ONewBuilding (lit "house") v_x; ONewStorey (lit "ground") f_one
  ; OLayer (lit "brick") layer1; OLayerSet [31]; OUsage 32 1 0 f_zero; OType CShading 32 (lit "awning") 0
  ; OShading 33 34 (lit "blind") f_two f_one v_x; ODrop; ODrop; ODrop ].
