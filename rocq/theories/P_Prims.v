(** Properties of the primitive attributes: C01, C02, C04, C05, C06, C18. *)

From Coq Require Import String Ascii List NArith ZArith Bool QArith Qabs.
From Verif Require Import Base Prims Spec PrimsFacts StringFacts Guid GuidFacts Float
  RoundFacts FloatFacts TextSpec TextFacts.
Import ListNotations.
Open Scope N_scope.

(** ** C01: ids *)

(** Printing gives '#' and the decimal notation; reading gives the id back and
    leaves the following text; different ids print differently; numbers that do
    not fit are rejected. *)
Theorem C01_id_printed n : exists ds, d_id n = lit "#" ++ ds /\ decimal n ds.
Proof. exact (ex_intro _ _ (conj eq_refl (show_N_decimal n))). Qed.
Print Assumptions C01_id_printed.

Theorem C01_id_round_trip n s :
  n <= 18446744073709551615 -> no_digit s -> p_id (d_id n ++ s) = ROk n s.
Proof. exact (p_id_show n s). Qed.
Print Assumptions C01_id_round_trip.

Theorem C01_id_injective n m : d_id n = d_id m -> n = m.
Proof. exact (d_id_inj n m). Qed.
Print Assumptions C01_id_injective.

Theorem C01_id_out_of_range n s :
  18446744073709551615 < n -> no_digit s -> p_id (d_id n ++ s) = RBack.
Proof. exact (p_id_out_of_range n s). Qed.
Print Assumptions C01_id_out_of_range.

Example C01_example :
  d_id 18446744073709551615 = lit "#18446744073709551615" /\
  no_digit (lit "= IFCWALL") /\
  p_id (lit "#120= IFCWALL") = ROk 120 (lit "= IFCWALL").
Proof. vm_compute. auto. Qed.

(** ** C02: integers *)

Theorem C02_int_printed z : decimal_int z (show_Z z).
Proof. exact (show_Z_decimal z). Qed.
Print Assumptions C02_int_printed.

Theorem C02_int_round_trip z s :
  (-9223372036854775808 <= z <= 9223372036854775807)%Z -> no_digit s ->
  p_int (show_Z z ++ s) = ROk z s.
Proof. exact (dec_int_show _ _ z s). Qed.
Print Assumptions C02_int_round_trip.

Theorem C02_int_never_wraps s z r :
  p_int s = ROk z r -> (-9223372036854775808 <= z <= 9223372036854775807)%Z.
Proof. exact (dec_int_range _ _ s z r). Qed.
Print Assumptions C02_int_never_wraps.

Theorem C02_int_out_of_range z s :
  (z < -9223372036854775808 \/ 9223372036854775807 < z)%Z -> no_digit s ->
  p_int (show_Z z ++ s) = RBack.
Proof. exact (dec_int_out_of_range _ _ z s). Qed.
Print Assumptions C02_int_out_of_range.

Example C02_example :
  p_int (lit "-9223372036854775808,$") = ROk (-9223372036854775808)%Z (lit ",$") /\
  p_int (lit "9223372036854775808,$") = RBack.
Proof. vm_compute. auto. Qed.

(** ** C04: texts *)

(** Any text without apostrophe and without the four characters that begin the
    body of an escape (in particular: without backslash) reads back exactly. *)
Theorem C04_text_round_trip s r :
  ~ In 39 s -> ~ In 92 s -> p_string (d_string s ++ r) = ROk s r.
Proof.
  exact (fun Hq Hb => eq_trans (p_string_d_string s r Hq)
    (f_equal (fun x => ROk x r) (decode_encode s (no_backslash_no_lead s Hb)))).
Qed.
Print Assumptions C04_text_round_trip.

(** The same under the weaker condition that only the lead [X2\0] is absent. *)
Theorem C04_text_round_trip_backslash s r :
  ~ In 39 s -> ~ occurs (lit "X2\0") s -> p_string (d_string s ++ r) = ROk s r.
Proof.
  exact (fun Hq Hb => eq_trans (p_string_d_string s r Hq)
    (f_equal (fun x => ROk x r) (decode_encode s Hb))).
Qed.
Print Assumptions C04_text_round_trip_backslash.

(** The printed text consists of the two quotes and characters other than the
    seven special ones. *)
Theorem C04_text_printed_without_specials s :
  exists w, d_string s = lit "'" ++ w ++ lit "'" /\
            forall c, In c w -> ~ In c [196; 228; 214; 246; 220; 252; 223].
Proof. exact (ex_intro _ _ (conj eq_refl (encode_no_special s))). Qed.
Print Assumptions C04_text_printed_without_specials.

(** Exactly: the letters with the directive of their own code point, all other
    characters as they are, between apostrophes. *)
Theorem C04_text_printed s : d_string s = lit "'" ++ in_ascii s ++ lit "'".
Proof. exact (d_string_in_ascii s). Qed.
Print Assumptions C04_text_printed.

(** A text with an apostrophe never reads back. *)
Theorem C04_apostrophe_lost s r r' : In 39 s -> p_string (d_string s ++ r) <> ROk s r'.
Proof. exact (apostrophe_lost s r r'). Qed.
Print Assumptions C04_apostrophe_lost.

(** Without apostrophe but with parts of an escape the text may change. *)
Theorem C04_all_texts_refuted :
  exists s r, ~ In 39 s /\ p_string (d_string s ++ r) <> ROk s r.
Proof.
  exists (lit "\X2\00C4\X0" ++ [196]), (lit ","). vm_compute.
  split; [intuition discriminate|discriminate].
Qed.
Print Assumptions C04_all_texts_refuted.

Example C04_example :
  d_string ([83; 252] ++ lit "d") = lit "'S\X2\00FC\X0\d'" /\
  p_string (lit "'S\X2\00FC\X0\d',$") = ROk ([83; 252] ++ lit "d") (lit ",$") /\
  p_string (d_string (lit "Bob's wall") ++ lit ",$") = ROk (lit "Bob") (lit "s wall',$").
Proof. vm_compute. auto. Qed.

(** ** C05: literals without raw special characters *)

Theorem C05_literal_preserved w r :
  ~ In 39 w -> (forall c, In c w -> ~ In c [196; 228; 214; 246; 220; 252; 223]) ->
  exists s, p_string (lit "'" ++ w ++ lit "'" ++ r) = ROk s r /\
            d_string s = lit "'" ++ w ++ lit "'".
Proof.
  exact (fun Hq Hs => ex_intro _ _ (conj (p_string_quoted w r Hq)
     (d_string_quoted w _ r (p_string_quoted w r Hq) Hq Hs))).
Qed.
Print Assumptions C05_literal_preserved.

Example C05_example :
  p_string (lit "'\X2\00C4\X0\X2\00C4\X0\ \X2\0041\X0\ \X',") =
    ROk ([196] ++ lit "X2\00C4\X0\ \X2\0041\X0\ \X") (lit ",") /\
  d_string ([196] ++ lit "X2\00C4\X0\ \X2\0041\X0\ \X") =
    lit "'\X2\00C4\X0\X2\00C4\X0\ \X2\0041\X0\ \X'".
Proof. vm_compute. auto. Qed.

(** ** C06: globally unique ids (16 bytes) *)

Theorem C06_guid_printed g :
  length g = 16%nat -> Forall (fun b => b < 256) g ->
  exists w, d_guid g = lit "'" ++ w ++ lit "'" /\ length w = 22%nat /\
    forall c, In c w ->
      In c (lit "0123456789ABCDEFGHIJKLMNOPQRSTUVWXYZabcdefghijklmnopqrstuvwxyz_$").
Proof. exact (fun H1 H2 => d_guid_shape g (conj H1 H2)). Qed.
Print Assumptions C06_guid_printed.

Theorem C06_guid_round_trip g r :
  length g = 16%nat -> Forall (fun b => b < 256) g -> p_guid (d_guid g ++ r) = ROk g r.
Proof. exact (fun H1 H2 => p_guid_show g r (conj H1 H2)). Qed.
Print Assumptions C06_guid_round_trip.

Theorem C06_guid_injective g h :
  length g = 16%nat -> Forall (fun b => b < 256) g ->
  length h = 16%nat -> Forall (fun b => b < 256) h ->
  d_guid g = d_guid h -> g = h.
Proof. exact (fun H1 H2 H3 H4 => d_guid_inj g h (conj H1 H2) (conj H3 H4)). Qed.
Print Assumptions C06_guid_injective.

Theorem C06_literal_preserved_iff c w r :
  length (c :: w) = 22%nat ->
  (forall x, In x (c :: w) ->
     In x (lit "0123456789ABCDEFGHIJKLMNOPQRSTUVWXYZabcdefghijklmnopqrstuvwxyz_$")) ->
  exists g, p_guid (lit "'" ++ (c :: w) ++ lit "'" ++ r) = ROk g r /\
            (d_guid g = lit "'" ++ (c :: w) ++ lit "'" <-> In c (lit "0123")).
Proof. exact (guid_literal_same c w r). Qed.
Print Assumptions C06_literal_preserved_iff.

Example C06_example :
  exists g, p_guid (lit "'1eNSekRkL2kg4q9BFMP2eJ'") = ROk g [] /\
               d_guid g = lit "'1eNSekRkL2kg4q9BFMP2eJ'".
Proof. eexists. split; vm_compute; reflexivity. Qed.

(** ** C18: reals *)

(** Plain form: the very same number is read. *)
Theorem C18_real_plain d s :
  f64_ok d -> is_scientific d = false -> stop s -> p_real (d_real d ++ s) = ROk d s.
Proof. exact (p_real_plain d s). Qed.
Print Assumptions C18_real_plain.

(** Scientific form: one digit, point, fourteen digits, exponent; that decimal
    differs from the number by less than a relative 10^-14 / 2; the number read
    is the float nearest to it. *)
Theorem C18_real_scientific d s :
  f64_ok d -> is_scientific d = true -> stop s ->
  exists neg m e i f ks k m' e',
    d = FFin neg m e /\
    d_real d = (if neg then lit "-" else []) ++ i ++ lit "." ++ f ++ lit "E" ++ ks /\
    length i = 1%nat /\ length f = 14%nat /\
    forallb is_digit (i ++ f) = true /\ decimal_int k ks /\
    (let x := qn (digits_value (i ++ f)) * b10 (k - 14) in
     Qabs (x - qn m * b2 e) <= (1 # 2) * b10 (-14) * (qn m * b2 e) /\
     p_real (d_real d ++ s) = ROk (FFin neg m' e') s /\
     f64_ok (FFin neg m' e') /\
     forall neg2 m2 e2, f64_ok (FFin neg2 m2 e2) ->
       Qabs (qn m' * b2 e' - x) <= Qabs (qn m2 * b2 e2 - x))%Q.
Proof. exact (p_real_sci_nearest d s). Qed.
Print Assumptions C18_real_scientific.

(** A second printing and reading changes nothing any more. *)
Theorem C18_real_second_time d s :
  f64_ok d -> stop s ->
  exists d1, p_real (d_real d ++ s) = ROk d1 s /\ f64_ok d1 /\
             p_real (d_real d1 ++ s) = ROk d1 s.
Proof.
  exact (fun Hok Hs => ex_intro _ (norm_real d)
    (conj (p_real_show d s Hok Hs) (conj (norm_real_ok d Hok)
       (eq_trans (p_real_show (norm_real d) s (norm_real_ok d Hok) Hs)
          (f_equal (fun x => ROk x s) (norm_real_idem d Hok)))))).
Qed.
Print Assumptions C18_real_second_time.

(** Not every number survives the first printing and reading:
    0.12999999999999998. *)
Theorem C18_all_reals_refuted :
  exists d s, f64_ok d /\ stop s /\ p_real (d_real d ++ s) <> ROk d s.
Proof.
  exists (FFin false 4683743612465315 (-55)), (lit ",").
  vm_compute. repeat split; try discriminate; auto. right. discriminate.
Qed.
Print Assumptions C18_all_reals_refuted.

Example C18_example_plain :
  p_real (lit "0.13,") = ROk (FFin false 4683743612465316 (-55)) (lit ",") /\
  d_real (FFin false 4683743612465316 (-55)) = lit "0.13" /\
  is_scientific (FFin false 4683743612465316 (-55)) = false /\
  d_real (FFin true 6755399441055744 (-51)) = lit "-3.".
Proof. vm_compute. auto. Qed.

Example C18_example_scientific :
  is_scientific (FFin false 4683743612465315 (-55)) = true /\
  d_real (FFin false 4683743612465315 (-55)) = lit "1.30000000000000E-1".
Proof. vm_compute. auto. Qed.
