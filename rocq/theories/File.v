(** Model of loading and saving a file: /repo/ifc_rs/src/lib.rs. *)

From Coq Require Import String Ascii List NArith ZArith Bool.
From Verif Require Import Base Prims Kind Types Schema Entity DataMap Header.
Import ListNotations.
Open Scope N_scope.
Open Scope parser_scope.

(** [IFC], /repo/ifc_rs/src/lib.rs:60-69; the footer has one value only. *)
Record ifc := mk_ifc { i_header : header; i_data : dmap }.

(** [IFC::parse], lines 83-93. *)
Definition p_ifc (v : env) : parser ifc :=
  h <- p_header v ;; d <- p_data ;; p_footer ;;; ret (mk_ifc h d).

(** ** Checking of references *)

(** The generated checks of one entity in the order of [entity_refs]: a missing
    id panics ([get_untyped]), a wrong type is an error ([bail!]);
    /repo/ifc_rs_verify_derive/src/field.rs:78-127 and lib.rs:109-125. *)
Fixpoint check_refs (m : dmap) (l : list (list kind * N)) : outcome unit :=
  match l with
  | [] => Done tt
  | (ks, n) :: l' =>
      match get_untyped m n with
      | Done e => if accepts ks (kind_of e) then check_refs m l' else Err
      | Err => Err
      | Panic => Panic
      end
  end.

(** [verify_id_types] of one object. *)
Definition verify_entity (m : dmap) (e : entity) : outcome unit := check_refs m (entity_refs e).

(** The loop of lines 103-105. *)
Fixpoint verify_all (m : dmap) (l : list (N * entity)) : outcome unit :=
  match l with
  | [] => Done tt
  | (_, e) :: l' =>
      match verify_entity m e with
      | Done _ => verify_all m l'
      | Err => Err
      | Panic => Panic
      end
  end.

(** [FromStr for IFC], lines 95-109. *)
Definition load (v : env) (s : text) : outcome ifc :=
  match parse_whole (p_ifc v) s with
  | Done x =>
      match verify_all (i_data x) (i_data x) with
      | Done _ => Done x
      | Err => Err
      | Panic => Panic
      end
  | Err => Err
  | Panic => Panic
  end.

(** [Display for IFC], lines 131-135. *)
Definition save (x : ifc) : text :=
  d_header (i_header x) ++ nl ++ d_data (i_data x) ++ nl ++ d_footer.
