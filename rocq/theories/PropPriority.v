(** Property C67: no byte is starved. *)
From Verif Require Import Base ScreenModel ScreenSpec BitmapModel ColourModel DisplaySpec BitmapSpec TableModel TableSpec
  VideoModel VideoSpec PrioritySpec PriorityProofs VideoExample PriorityExample.

(** If every frame gets at least [r] changes (or none at all), [J] frames make
    7680 changes, and the table's nonzero distances are between [dmin] and
    [dmax], then a byte that differs from the frames to be shown is stored to
    after being left waiting [J * dmax / dmin] times at most, in any history. *)
Theorem C67_no_starvation : forall ed k r a p o dmin dmax J w v,
  u16_table k ed -> ranged_table k ed dmin dmax -> 0 <= dmin -> 0 <= dmax -> 0 <= r -> in_page p o ->
  waiting ed k r a p o w v -> 0 <= J -> 7680 <= r * J -> w * dmin <= J * dmax.
Proof. exact no_starvation. Qed.
Print Assumptions C67_no_starvation.

(** any 16-bit table, at least one change per frame *)
Theorem C67_always_finite : forall ed k a p o w v, u16_table k ed -> in_page p o ->
  waiting ed k 1 a p o w v -> w <= 7680 * 65535.
Proof.
  intros ed k a p o w v HE Hin W.
  assert (HR : ranged_table k ed 1 65535) by (intros i x y Hi Hx Hy; specialize (HE i x y Hi Hx Hy); lia).
  pose proof (no_starvation ed k 1 a p o 1 65535 7680 w v HE HR ltac:(lia) ltac:(lia) ltac:(lia) Hin W ltac:(lia) ltac:(lia)). lia.
Qed.
Print Assumptions C67_always_finite.

(** The tables as make_data_tables.py builds them, from a matrix of colour
    differences of at most [M]: at most [J * dots * M] frames, where [dots] is 18
    for hi-res and 10 for double hi-res. *)
Theorem C67_built_tables : forall dm k value t M r a p o J w v,
  value = hgr_value \/ value = dhgr_value ->
  (forall i j, 0 <= i < 16 -> 0 <= j < 16 -> 0 <= dm i j <= M) -> M <= 3640 ->
  compute_edit_distance (compute_substitute_costs dm) k value = Ok t ->
  in_page p o -> waiting (edit_distances k t) k r a p o w v -> 0 <= r -> 0 <= J -> 7680 <= r * J ->
  w <= J * (match k with HGR => 18 | DHGR => 10 end * M).
Proof.
  intros dm k value t M r a p o J w v V HM M0 HT Hin W Hr HJ HJr.
  assert (HD : small_matrix dm) by (intros i j Hi Hj; specialize (HM i j Hi Hj); lia).
  assert (MP : 0 <= M) by (specialize (HM 0 0 ltac:(lia) ltac:(lia)); lia).
  pose proof (no_starvation _ k r a p o 1 _ J w v (built_u16 dm k value t V HD HT) (built_ranged dm k value t M V HM M0 HT)
    ltac:(lia) ltac:(apply Z.mul_nonneg_nonneg; [destruct k; cbn; lia|exact MP]) Hr Hin W HJ HJr) as B.
  rewrite Z.mul_1_r in B. exact B.
Qed.
Print Assumptions C67_built_tables.

(** The hypotheses are met: in the example run byte 4 of row 0 is left waiting
    by a frame abandoned after its first change. *)
Example C67_case : u16_table HGR ed_ex /\ ranged_table HGR ed_ex 10 1000 /\ in_page 0 4 /\ waiting ed_ex HGR 1 false 0 4 1 (fst s1).
Proof. split; [exact ex_u16|]. split; [exact ex_ranged|]. split; [split; lia|exact ex_waiting]. Qed.
