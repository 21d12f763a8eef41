(** C54, C55, C65: utility functions. *)
From Coq Require Import NArith List Bool Lia.
From Verif Require Import Base Lists Util SpecUtil ProofsUtil.
Import ListNotations.
Open Scope N_scope.

(** ** C54 Memory comparison *)

(** With at least one more readable byte behind both regions the result is right. *)
Theorem C54_value : forall l r n, n < lenN l -> n < lenN r ->
  exists v, mem_cmp (Some l) (Some r) n = Ok v /\ (v = true <-> 0 < n /\ takeN n l = takeN n r).
Proof. exact memcmp_value. Qed.
Print Assumptions C54_value.

(** Different regions are compared without reading outside. *)
Theorem C54_unequal : forall l r, lenN l = lenN r -> l <> r -> mem_cmp (Some l) (Some r) (lenN l) = Ok false.
Proof. exact memcmp_unequal. Qed.
Print Assumptions C54_unequal.

(** Equal regions never are: the byte behind both is read. *)
Theorem C54_overread_refuted : forall l, l <> [] -> mem_cmp (Some l) (Some l) (lenN l) = UB OobBuffer.
Proof. exact memcmp_over. Qed.
Print Assumptions C54_overread_refuted.

Example C54_case : mem_cmp (Some [1; 2; 3; 9]) (Some [1; 2; 3; 8]) 3 = Ok true /\ mem_cmp (Some [1; 2; 3]) (Some [1; 7; 3]) 3 = Ok false /\
  mem_cmp (Some [1; 2; 3; 9]) (Some [1; 2; 3; 8]) 4 = Ok false /\ mem_cmp (Some [5; 6]) (Some [5; 6]) 2 = UB OobBuffer.
Proof. repeat split. Qed.

(** ** C55 Number formatting *)

(** The specification determines the numeral. *)
Theorem C55_unique : forall b x y v, 2 <= b -> numeral b x v -> numeral b y v -> x = y.
Proof. exact numeral_unique. Qed.
Print Assumptions C55_unique.

Theorem C55_exists : forall v b, 2 <= b -> v < 2 ^ 32 -> exists t, text v b t /\ lenN t <= 34.
Proof. intros v b Hb Hv. destruct (text_ex v b Hb Hv) as (t & T). exists t. split; [exact T|]. exact (text_len v b t Hb Hv T). Qed.
Print Assumptions C55_exists.

(** The text and a NUL are written, the rest of the buffer is untouched; a buffer
    too short for them is overrun.  The most negative number is excluded where
    long has 32 bits. *)
Theorem C55_itoa : forall long_bits v b buf t, 2 <= b <= 36 -> v < 2 ^ 32 -> text v b t ->
  ~ (v = 2 ^ 31 /\ b = 10 /\ long_bits = 32) ->
  itoa long_bits v b buf = if lenN t <? lenN buf then Ok (t ++ 0 :: dropN (lenN t + 1) buf) else UB OobBuffer.
Proof. exact itoa_val. Qed.
Print Assumptions C55_itoa.

Theorem C55_min_refuted : forall buf, itoa 32 (2 ^ 31) 10 buf = UB IntOverflow.
Proof. reflexivity. Qed.
Print Assumptions C55_min_refuted.

Example C55_case :
  text 4294967254 10 [45; 52; 50] /\ text 48879 16 [66; 69; 69; 70] /\
  itoa 64 4294967254 10 (repeat 7 6) = Ok [45; 52; 50; 0; 7; 7] /\ itoa 64 48879 16 (repeat 7 5) = Ok [66; 69; 69; 70; 0] /\
  itoa 64 0 2 [7; 7] = Ok [48; 0] /\ itoa 64 (2 ^ 31) 10 (repeat 7 12) = Ok [45; 50; 49; 52; 55; 52; 56; 51; 54; 52; 56; 0].
Proof.
  split; [exists [4; 2]; split; [split; [reflexivity|split; [repeat constructor|reflexivity]]|reflexivity]|].
  split; [exists [11; 14; 14; 15]; split; [split; [reflexivity|split; [repeat constructor|reflexivity]]|reflexivity]|]. repeat split.
Qed.

(** ** C65 Copying and filling memory *)

Theorem C65_copy : forall aspace m d s n, 0 < d -> 0 < n -> in_range aspace d s n -> d <= s \/ s + n <= d ->
  exists m', mem_copy aspace m d s n = Ok m' /\ moved m m' d s n.
Proof. exact mem_copy_ok. Qed.
Print Assumptions C65_copy.

(** Overlapping upwards: the first bytes are repeated instead. *)
Theorem C65_overlap_refuted : forall aspace m d s n, s < d -> d < s + n -> in_range aspace d s n ->
  exists m', mem_copy aspace m d s n = Ok m' /\ (forall i, i < n -> m' (d + i) = m (s + i mod (d - s))) /\
    (m s <> m d -> ~ moved m m' d s n).
Proof. exact mem_copy_over. Qed.
Print Assumptions C65_overlap_refuted.

Theorem C65_set : forall p v n, n <= lenN p -> mem_set (Some p) v n = Ok (repeat v (N.to_nat n) ++ dropN n p).
Proof. exact memset_ok. Qed.
Print Assumptions C65_set.

Theorem C65_set_bounds : forall p v n, lenN p < n -> mem_set (Some p) v n = UB OobBuffer.
Proof. exact memset_oob. Qed.
Print Assumptions C65_set_bounds.

Example C65_case : in_range (2 ^ 32) 100 102 8 /\ in_range (2 ^ 32) 102 100 8 /\
  (let m := fun x => x in match mem_copy (2 ^ 32) m 102 100 4, mem_copy (2 ^ 32) m 100 102 4 with
    | Ok a, Ok b => mread a 102 4 = [100; 101; 100; 101] /\ mread b 100 4 = [102; 103; 104; 105] | _, _ => False end) /\
  mem_set (Some [1; 2; 3]) 0xFF 2 = Ok [0xFF; 0xFF; 3].
Proof. unfold in_range. repeat split; vm_compute; congruence. Qed.
