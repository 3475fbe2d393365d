(** Masked values, displayed dots and pixel colours. *)
From Verif Require Import Base BaseFacts BitFacts ScreenModel BitmapModel DisplaySpec BitmapSpec
  BitmapProofs BitmapApply BitmapState ColourModel ColourProofs.

(** dot [i] (0..20) of the window, from the bits of the masked value *)
Definition hgr_dots_bits (mv o i : Z) : bool :=
  let t := Z.testbit mv in
  let hp := t 2 in
  let bp := if o =? 0 then t 10 else t 3 in
  let data j := if o =? 0 then t (3 + j) else t (4 + j) in
  let fp := t 11 in
  if i <? 3 then t ((11 + i - b2z hp) / 2 - 5)
  else if i <? 17 then (if i - 3 <? b2z bp then t 1 else data ((i - 3 - b2z bp) / 2))
  else if i - 17 <? b2z fp then data 6 else t (12 + (i - 17 - b2z fp) / 2).

Lemma hgr_to_dots_sweep :
  forallb (fun mv => forallb (fun o =>
    match to_dots HGR mv o with
    | Ok d => (0 <=? d) && (d <? 2 ^ 21) &&
        forallb (fun i => Bool.eqb (Z.testbit d i) (hgr_dots_bits mv o i)) (zrange 21)
    | Raise _ => false
    end) [0; 1]) (zrange 16384) = true.
Proof. vm_compute. reflexivity. Qed.

Lemma hgr_to_dots_bits mv o : 0 <= mv < 16384 -> o = 0 \/ o = 1 ->
  exists d, to_dots HGR mv o = Ok d /\ 0 <= d < 2 ^ 21 /\
    forall i, 0 <= i < 21 -> Z.testbit d i = hgr_dots_bits mv o i.
Proof.
  intros Hm Ho. pose proof (forall_range _ _ hgr_to_dots_sweep mv Hm) as S.
  cbv beta in S. rewrite forallb_forall in S.
  assert (Ho' : In o [0; 1]) by (destruct Ho; subst; cbn; auto).
  specialize (S o Ho'). cbv beta in S.
  destruct (to_dots HGR mv o) as [d|]; [|discriminate].
  apply andb_prop in S. destruct S as [S1 S2]. exists d. split; auto.
  split; [lia|]. intros i Hi. pose proof (forall_range _ _ S2 i Hi) as B.
  cbv beta in B. apply eqb_prop; auto.
Qed.

(** bits of the masked value around offset [off] *)
Lemma hgr_masked_bits main aux packed off i :
  0 <= off < 256 -> row_ok HGR main aux packed -> 0 <= i < 14 ->
  let r := clip_row main in
  Z.testbit (mask_and_shift HGR (packed (off / 2)) (off mod 2)) i =
    if i <? 2 then Z.testbit (r (off - 1)) (i + 5)
    else if i =? 2 then Z.testbit (r (off - 1)) 7
    else if i <? 11 then
      (if off mod 2 =? 0 then Z.testbit (r off) (i - 3)
       else if i =? 3 then Z.testbit (r off) 7 else Z.testbit (r off) (i - 4))
    else if i =? 11 then Z.testbit (r (off + 1)) 7
    else Z.testbit (r (off + 1)) (i - 12).
Proof.
  intros Ho HR Hi. cbv zeta.
  assert (P : off mod 2 = 0 \/ off mod 2 = 1) by dlia.
  pose proof (Z.div_mod off 2 ltac:(lia)) as E.
  assert (Hc : 0 <= off / 2 < 128) by dlia.
  rewrite masked_bit by (unfold valid_o; kc; lia).
  destruct (HR (off / 2) Hc) as [_ Hb]. change (MASKED_BITS HGR) with 14. unfold shift_of. kc.
  rewrite Hb by (clear Hb HR; lia). clear Hb HR.
  remember (off / 2) as c eqn:Ec; clear Ec.
  unfold packed_bit. destruct P as [P|P]; rewrite P in *; bcase; try tbeq.
Qed.

Lemma clip_byte_bits main j i : row_bytes main -> 8 <= i -> Z.testbit (clip_row main j) i = false.
Proof.
  intros Hb Hi. unfold clip_row. destruct ((0 <=? j) && (j <? 256)) eqn:E; [|apply Z.bits_0].
  apply (testbit_high 8); [|lia]. apply Hb. lia.
Qed.

Lemma hgr_window main aux packed off i :
  0 <= off < 256 -> row_ok HGR main aux packed -> 0 <= i < 21 ->
  hgr_dots_bits (mask_and_shift HGR (packed (off / 2)) (off mod 2)) (off mod 2) i
  = hgr_dot main (14 * off - 3 + i).
Proof.
  intros Ho HR Hi.
  pose proof (fun j Hj => hgr_masked_bits main aux packed off j Ho HR Hj) as M. cbv zeta in M.
  set (mv := mask_and_shift HGR (packed (off / 2)) (off mod 2)) in *. clearbody mv.
  assert (P : off mod 2 = 0 \/ off mod 2 = 1) by dlia.
  set (r := clip_row main) in *.
  assert (Hhp : Z.testbit mv 2 = Z.testbit (r (off - 1)) 7) by (rewrite M by lia; reflexivity).
  assert (Hfp : Z.testbit mv 11 = Z.testbit (r (off + 1)) 7) by (rewrite M by lia; reflexivity).
  assert (Hbp : (if off mod 2 =? 0 then Z.testbit mv 10 else Z.testbit mv 3) = Z.testbit (r off) 7).
  { destruct P as [P|P]; rewrite P in *; cbn [Z.eqb] in *; rewrite M by lia; reflexivity. }
  assert (Hdata : forall j, 0 <= j < 7 ->
     (if off mod 2 =? 0 then Z.testbit mv (3 + j) else Z.testbit mv (4 + j)) = Z.testbit (r off) j).
  { intros j Hj. destruct P as [P|P]; rewrite P in *; cbn [Z.eqb] in *; rewrite M by (clear M; lia); clear - Hj; bcase; tbeq. }
  assert (H1 : Z.testbit mv 1 = Z.testbit (r (off - 1)) 6) by (rewrite M by lia; reflexivity).
  unfold hgr_dots_bits, hgr_dot. rewrite Hhp, Hfp, Hbp.
  destruct (Z.ltb_spec i 3) as [L3|G3]; [|destruct (Z.ltb_spec i 17) as [L17|G17]].
  - replace ((14 * off - 3 + i) / 14) with (off - 1) by (clear - L3 Hi; dlia).
    replace ((14 * off - 3 + i) mod 14) with (11 + i) by (clear - L3 Hi; dlia).
    fold r. pose proof (b2z_bound (Z.testbit (r (off - 1)) 7)) as Bd.
    remember (b2z (Z.testbit (r (off - 1)) 7)) as dl.
    destruct (Z.ltb_spec (11 + i) dl); [clear - H Bd Hi; lia|].
    assert (Q : 5 <= (11 + i - dl) / 2 <= 6) by (clear - L3 Hi Bd; dlia).
    rewrite M by (clear - Q; lia). clear - Q. bcase; tbeq.
  - replace ((14 * off - 3 + i) / 14) with off by (clear - L17 G3; dlia).
    replace ((14 * off - 3 + i) mod 14) with (i - 3) by (clear - L17 G3; dlia).
    fold r. pose proof (b2z_bound (Z.testbit (r off) 7)) as Bd.
    remember (b2z (Z.testbit (r off) 7)) as dl.
    destruct (Z.ltb_spec (i - 3) dl).
    + rewrite H1. f_equal.
    + rewrite Hdata; [reflexivity|]. clear - L17 G3 Bd H. dlia.
  - replace ((14 * off - 3 + i) / 14) with (off + 1) by (clear - G17 Hi; dlia).
    replace ((14 * off - 3 + i) mod 14) with (i - 17) by (clear - G17 Hi; dlia).
    fold r. pose proof (b2z_bound (Z.testbit (r (off + 1)) 7)) as Bd.
    remember (b2z (Z.testbit (r (off + 1)) 7)) as dl.
    destruct (Z.ltb_spec (i - 17) dl).
    + rewrite Hdata by (clear; lia). f_equal. f_equal. clear; lia.
    + assert (Q : 0 <= (i - 17 - dl) / 2 <= 1) by (clear - G17 Hi H Bd; dlia).
      rewrite M by (clear - Q; lia). clear - Q. bcase; tbeq.
Qed.

Lemma hgr_masked_to_dots main aux packed off :
  0 <= off < 256 -> row_ok HGR main aux packed ->
  exists d, to_dots HGR (mask_and_shift HGR (packed (off / 2)) (bo HGR off false)) (bo HGR off false) = Ok d /\
    0 <= d < 2 ^ 21 /\ forall i, 0 <= i < 21 -> Z.testbit d i = hgr_dot main (14 * off - 3 + i).
Proof.
  intros Ho HR. unfold bo.
  assert (P : off mod 2 = 0 \/ off mod 2 = 1) by dlia.
  assert (V : valid_o HGR (off mod 2)) by (unfold valid_o; kc; lia).
  pose proof (masked_bound HGR (packed (off / 2)) (off mod 2) V) as B.
  change (2 ^ MASKED_BITS HGR) with 16384 in B.
  destruct (hgr_to_dots_bits _ _ B P) as (d & E & Bd & Hd).
  exists d. split; auto. split; auto. intros i Hi. rewrite Hd by auto.
  apply (hgr_window main aux); auto.
Qed.

(** DHGR: masked value = 13 dots from 3 before the byte *)
Lemma dhgr_masked_dots main aux packed off is_aux i :
  0 <= off < 256 -> row_ok DHGR main aux packed -> 0 <= i < 13 ->
  Z.testbit (mask_and_shift DHGR (packed (off / 2)) (bo DHGR off is_aux)) i
  = dhgr_dot aux main (7 * (2 * off + (if is_aux then 0 else 1)) - 3 + i).
Proof.
  intros Ho HR Hi.
  assert (P : off mod 2 = 0 \/ off mod 2 = 1) by dlia.
  pose proof (Z.div_mod off 2 ltac:(lia)) as E.
  assert (Hc : 0 <= off / 2 < 128) by dlia.
  assert (V : valid_o DHGR (bo DHGR off is_aux)) by (apply valid_bo; left; auto).
  rewrite masked_bit by (auto; lia).
  destruct (HR (off / 2) Hc) as [_ Hb]. change (MASKED_BITS DHGR) with 13.
  unfold valid_o in V. kc. unfold shift_of.
  rewrite Hb by lia. unfold packed_bit. destruct (Z.ltb_spec i 13); [|lia]. cbn [andb]. f_equal.
  unfold bo. destruct is_aux; lia.
Qed.

(** ** Pixels of the window *)
Lemma phase_HGR off : 0 <= off -> nth (Z.to_nat (bo HGR off false)) (PHASES HGR) 0 = (14 * off - 3) mod 4.
Proof.
  intros Ho. unfold bo. assert (P : off mod 2 = 0 \/ off mod 2 = 1) by dlia.
  destruct P as [P|P]; rewrite P;
  match goal with |- nth (Z.to_nat ?e) _ _ = _ => let v := eval vm_compute in (nth (Z.to_nat e) (PHASES HGR) 0) in
    change (nth (Z.to_nat e) (PHASES HGR) 0) with v end; dlia.
Qed.

Lemma phase_DHGR off is_aux : 0 <= off ->
  nth (Z.to_nat (bo DHGR off is_aux)) (PHASES DHGR) 0 = (7 * (2 * off + (if is_aux then 0 else 1)) - 3) mod 4.
Proof.
  intros Ho. unfold bo. assert (P : off mod 2 = 0 \/ off mod 2 = 1) by dlia.
  destruct is_aux, P as [P|P]; rewrite P;
  match goal with |- nth (Z.to_nat ?e) _ _ = _ => let v := eval vm_compute in (nth (Z.to_nat e) (PHASES DHGR) 0) in
    change (nth (Z.to_nat e) (PHASES DHGR) 0) with v end; dlia.
Qed.

Lemma window_pixels_spec k value main aux packed off is_aux :
  0 <= off < 256 -> bank_ok k is_aux -> good_enum value ->
  row_ok k main aux packed ->
  window_pixels k value (mask_and_shift k (packed (off / 2)) (bo k off is_aux)) (bo k off is_aux)
  = Ok (map (fun i => pixel_colour (row_dot k main aux) (window_start k off is_aux + i)) (zrange (MASKED_DOTS k))).
Proof.
  intros Ho Hb G HR. unfold window_pixels, dots_to_nominal_colour_pixel_values. destruct k.
  - destruct Hb as [Hb| ->]; [discriminate|].
    destruct (hgr_masked_to_dots main aux packed off Ho HR) as (d & E & Bd & Hd).
    rewrite E. cbn [rbind].
    destruct (colours_spec value (MASKED_DOTS HGR) d (nth (Z.to_nat (bo HGR off false)) (PHASES HGR) 0)
        (hgr_dot main) (14 * off - 3) G) as (l & El & Ml).
    + unfold MASKED_DOTS; lia.
    + rewrite phase_HGR by lia. apply Z.mod_pos_bound; lia.
    + apply phase_HGR; lia.
    + intros t Ht. apply Hd. unfold MASKED_DOTS in Ht; lia.
    + rewrite El. cbn [rbind]. rewrite Ml. reflexivity.
  - cbn [to_dots rbind].
    destruct (colours_spec value (MASKED_DOTS DHGR) (mask_and_shift DHGR (packed (off / 2)) (bo DHGR off is_aux))
        (nth (Z.to_nat (bo DHGR off is_aux)) (PHASES DHGR) 0)
        (dhgr_dot aux main) (window_start DHGR off is_aux) G) as (l & El & Ml).
    + unfold MASKED_DOTS; lia.
    + rewrite phase_DHGR by lia. apply Z.mod_pos_bound; lia.
    + apply phase_DHGR; lia.
    + intros t Ht. apply dhgr_masked_dots; auto; unfold MASKED_DOTS in Ht; lia.
    + rewrite El. cbn [rbind]. rewrite Ml. reflexivity.
Qed.

(** ** Locality of a store *)
Lemma dhgr_dot_store main aux off (is_aux : bool) v d :
  0 <= off < 256 ->
  d / 7 <> 2 * off + (if is_aux then 0 else 1) ->
  let '(main', aux') := set_rows is_aux main aux off v in
  dhgr_dot aux' main' d = dhgr_dot aux main d.
Proof.
  intros Ho Hd. unfold set_rows. destruct is_aux; unfold dhgr_dot;
  destruct (Z.even (d / 7)) eqn:Ev; auto; rewrite clip_upd by auto;
  (destruct (Z.eqb_spec (d / 7 / 2) off) as [E|]; [exfalso|reflexivity]).
  - rewrite (Z.div_mod (d / 7) 2) in Hd by lia. rewrite Zmod_even, Ev, E in Hd. lia.
  - rewrite (Z.div_mod (d / 7) 2) in Hd by lia. rewrite Zmod_even, Ev, E in Hd. lia.
Qed.

Lemma hgr_dot_store main off v d :
  0 <= off < 256 -> ~ (14 * off <= d <= 14 * off + 14) ->
  hgr_dot (upd1 main off v) d = hgr_dot main d.
Proof.
  intros Ho Hd. unfold hgr_dot. rewrite !clip_upd by auto.
  destruct (Z.eqb_spec (d / 14) off) as [E|N].
  - exfalso. apply Hd. subst off. dlia.
  - destruct (Z.ltb_spec (d mod 14) (b2z (Z.testbit (clip_row main (d / 14)) 7))) as [L|]; auto.
    destruct (Z.eqb_spec (d / 14 - 1) off) as [E|]; auto.
    exfalso. apply Hd. pose proof (b2z_bound (Z.testbit (clip_row main (d / 14)) 7)) as Bb.
    remember (b2z (Z.testbit (clip_row main (d / 14)) 7)) as z. clear Heqz. subst off. dlia.
Qed.

Lemma store_pixels_local k main aux off is_aux v d :
  0 <= off < 256 -> bank_ok k is_aux ->
  ~ (window_start k off is_aux <= d < window_start k off is_aux + MASKED_DOTS k) ->
  let '(main', aux') := set_rows is_aux main aux off v in
  pixel_colour (row_dot k main' aux') d = pixel_colour (row_dot k main aux) d.
Proof.
  intros Ho Hb Hd. destruct k.
  - destruct Hb as [Hb| ->]; [discriminate|]. cbn [set_rows row_dot].
    apply pixel_colour_local. intros t Ht. apply hgr_dot_store; auto.
    unfold window_start, MASKED_DOTS in Hd. lia.
  - pose proof (dhgr_dot_store main aux off is_aux v) as L.
    destruct (set_rows is_aux main aux off v) as [main' aux']. cbn [row_dot].
    apply pixel_colour_local. intros t Ht. apply L; auto.
    unfold window_start, MASKED_DOTS in Hd. intros E. apply Hd.
    destruct is_aux; dlia.
Qed.
