(** Model of /repo/ifc_rs/src/id/ifc_uuid.rs: globally unique ids as 16 bytes and
    their 22 character notation. *)

From Coq Require Import String Ascii List NArith Bool.
From Verif Require Import Base.
Import ListNotations.
Open Scope N_scope.
Open Scope parser_scope.

(** /repo/ifc_rs/src/id/ifc_uuid.rs:5 [ALPHABET]. *)
Definition alphabet : text :=
  lit "0123456789ABCDEFGHIJKLMNOPQRSTUVWXYZabcdefghijklmnopqrstuvwxyz_$".

(** Rust [str::find(char)] on a text of one-byte characters, as used at
    /repo/ifc_rs/src/id/ifc_uuid.rs:85. *)
Fixpoint find_char (c : N) (i : N) (s : text) : option N :=
  match s with
  | [] => None
  | d :: r => if c =? d then Some i else find_char c (i + 1) r
  end.

(** /repo/ifc_rs/src/id/ifc_uuid.rs:82 [ALPHABET.contains(c)]. *)
Definition in_alphabet (c : N) : bool :=
  match find_char c 0 alphabet with Some _ => true | None => false end.

(** [x as u8]. *)
Definition as_u8 (n : N) : N := N.land n 255.

(** /repo/ifc_rs/src/id/ifc_uuid.rs:125-127 [get_base16_bytes]. *)
Definition get_base16_bytes (combined : N) (byte : N) : N :=
  N.land (as_u8 (N.shiftr combined (byte * 8))) 255.

(** /repo/ifc_rs/src/id/ifc_uuid.rs:129-132 [combine_first_base64_bytes]; the
    shift is on [u8] and drops the high bits. *)
Definition combine_first_base64_bytes (a b : N) : N :=
  N.lor (as_u8 (N.shiftl (N.land a 63) 6)) (N.land b 63).

(** /repo/ifc_rs/src/id/ifc_uuid.rs:134-138 [combine_base64_bytes]; four 6-bit
    numbers never exceed [u32]. *)
Definition combine_base64_bytes (bs : list N) : N :=
  fold_left (fun acc b => N.lor (N.shiftl acc 6) b) bs 0.

(** /repo/ifc_rs/src/id/ifc_uuid.rs:108-117: groups of four; an incomplete last
    group ends the iteration. *)
Fixpoint decode_chunks (l : list N) : list N :=
  match l with
  | a :: b :: c :: d :: r =>
      let n := combine_base64_bytes [a; b; c; d] in
      get_base16_bytes n 2 :: get_base16_bytes n 1 :: get_base16_bytes n 0 :: decode_chunks r
  | _ => []
  end.

(** /repo/ifc_rs/src/id/ifc_uuid.rs:100-123 [decode_base16_to_base64]. *)
Definition decode_guid (l : list N) : list N :=
  match l with
  | a :: b :: r => combine_first_base64_bytes a b :: decode_chunks r
  | _ => []
  end.

(** /repo/ifc_rs/src/id/ifc_uuid.rs:165-167 [get_base64_bit]. *)
Definition get_base64_bit (combined : N) (bit : N) : N :=
  N.land (as_u8 (N.shiftr combined (bit * 6))) 63.

(** /repo/ifc_rs/src/id/ifc_uuid.rs:170-174 [combine_base16_bytes]. *)
Definition combine_base16_bytes (bs : list N) : N :=
  fold_left (fun acc b => N.lor (N.shiftl acc 8) b) bs 0.

(** /repo/ifc_rs/src/id/ifc_uuid.rs:148-157: groups of three. *)
Fixpoint encode_chunks (l : list N) : list N :=
  match l with
  | a :: b :: c :: r =>
      let n := combine_base16_bytes [a; b; c] in
      get_base64_bit n 3 :: get_base64_bit n 2 :: get_base64_bit n 1 :: get_base64_bit n 0
        :: encode_chunks r
  | _ => []
  end.

(** /repo/ifc_rs/src/id/ifc_uuid.rs:140-163 [encode_base16_to_base64]. *)
Definition encode_guid (l : list N) : list N :=
  match l with
  | a :: r => get_base64_bit a 1 :: get_base64_bit a 0 :: encode_chunks r
  | [] => []
  end.

(** /repo/ifc_rs/src/id/ifc_uuid.rs:66-72 [base64_ifc_string]; the index is
    below 64 because of the mask, so the [unwrap] never fails. *)
Definition guid_chars (bytes : list N) : text :=
  map (fun i => nth (N.to_nat i) alphabet 0) (encode_guid bytes).

(** /repo/ifc_rs/src/id/ifc_uuid.rs:83-87: positions of the characters;
    characters outside the alphabet are dropped. *)
Definition guid_positions (s : text) : list N :=
  flat_map (fun c => match find_char c 0 alphabet with Some i => [i] | None => [] end) s.

(** /repo/ifc_rs/src/id/ifc_uuid.rs:75-92 [IfcGloballyUniqueId::parse]; the
    [expect] at 43-51 panics unless there are 16 bytes. *)
Definition p_guid : parser (list N) :=
  tag (lit "'") ;;;
  g <- pmap_unwrap
         (fun s => let bs := decode_guid (guid_positions s) in
                   if Nat.eqb (length bs) 16 then Some bs else None)
         (take_exactly 22 in_alphabet) ;;
  tag (lit "'") ;;; ret g.

(** /repo/ifc_rs/src/id/ifc_uuid.rs:94-98 [Display]. *)
Definition d_guid (bytes : list N) : text := lit "'" ++ guid_chars bytes ++ lit "'".
