From Verif Require Import Base BaseFacts BitFacts ScreenModel ScreenSpec ScreenProofs BitmapModel ColourModel
  DisplaySpec BitmapSpec BitmapProofs ColourProofs LineSpec.

(** ** a scan line by itself *)
Lemma line_start p off y : visible_xy 0 y -> hires_offset 0 y = 256 * p + off -> 0 <= off < 256 ->
  0 <= p < 32 /\ off <= 208 /\ off mod 4 = 0.
Proof.
  unfold visible_xy, hires_offset. intros [_ Hy] E Ho.
  assert (A : 0 <= (y / 8) mod 8 < 8) by (apply Z.mod_pos_bound; lia).
  assert (B : 0 <= y / 64 <= 2) by (clear - Hy; dlia).
  assert (C : 0 <= y mod 8 < 8) by (apply Z.mod_pos_bound; lia).
  set (u := (y / 8) mod 8) in *. set (v := y / 64) in *. set (w := y mod 8) in *. clearbody u v w. clear Hy y.
  assert (Q : off = 128 * (u mod 2) + 40 * v) by dlia.
  assert (0 <= u mod 2 < 2) by (apply Z.mod_pos_bound; lia).
  split; [dlia|]. split; [lia|]. rewrite Q. replace (128 * (u mod 2) + 40 * v) with ((32 * (u mod 2) + 10 * v) * 4) by ring.
  apply Z.mod_mul. lia.
Qed.
Lemma line_cell (m : mem) y p off x : visible_xy 0 y -> hires_offset 0 y = 256 * p + off -> 0 <= off < 256 ->
  0 <= x < 40 -> clip_row (m p) (off + x) = clip_row (scan_line m y) x.
Proof.
  intros Hv E Ho Hx. destruct (line_start p off y Hv E Ho) as (Hp & Hoff & _).
  unfold clip_row, scan_line.
  replace ((0 <=? off + x) && (off + x <? 256)) with true by (symmetry; apply andb_true_iff; rewrite Z.leb_le, Z.ltb_lt; lia).
  replace ((0 <=? x) && (x <? 256)) with true by (symmetry; apply andb_true_iff; rewrite Z.leb_le, Z.ltb_lt; lia).
  replace ((0 <=? x) && (x <? 40)) with true by (symmetry; apply andb_true_iff; rewrite Z.leb_le, Z.ltb_lt; lia).
  assert (Q : hires_offset x y = p * 256 + (off + x)) by (unfold hires_offset in *; lia). rewrite Q.
  replace (p * 256 + (off + x)) with (off + x + p * 256) by ring. rewrite Z.div_add, Z.mod_add by lia.
  rewrite Z.div_small, Z.mod_small by lia. reflexivity.
Qed.
Lemma line_dots k (main aux : mem) y p off d : visible_xy 0 y -> hires_offset 0 y = 256 * p + off -> 0 <= off < 256 ->
  0 <= d < 560 -> (k = HGR -> 0 < d) ->
  row_dot k (main p) (aux p) (14 * off + d) = row_dot k (scan_line main y) (scan_line aux y) d.
Proof.
  intros Hv E Ho Hd Hk. destruct k; cbn [row_dot].
  - unfold hgr_dot. specialize (Hk eq_refl).
    replace (14 * off + d) with (d + off * 14) by ring. rewrite Z.div_add, Z.mod_add by lia.
    assert (0 <= d / 14 < 40) by (clear - Hd; dlia).
    replace (d / 14 + off) with (off + d / 14) by ring.
    rewrite (line_cell main y p off (d / 14)) by auto.
    destruct (d mod 14 <? _) eqn:L; [|reflexivity].
    assert (0 < d / 14).
    { apply Z.ltb_lt in L. assert (d mod 14 < 1) by (destruct (Z.testbit _ 7); cbn [b2z] in L; lia). clear - H0 Hk Hd. dlia. }
    replace (off + d / 14 - 1) with (off + (d / 14 - 1)) by ring.
    rewrite (line_cell main y p off (d / 14 - 1)) by (auto; lia). reflexivity.
  - unfold dhgr_dot.
    replace (14 * off + d) with (d + (2 * off) * 7) by ring. rewrite Z.div_add, Z.mod_add by lia.
    rewrite Z.even_add, Z.even_mul. cbn [Z.even orb].
    replace (d / 7 + 2 * off) with (d / 7 + off * 2) by ring. rewrite Z.div_add by lia.
    assert (0 <= d / 7 / 2 < 40) by (clear - Hd; dlia).
    replace (d / 7 / 2 + off) with (off + d / 7 / 2) by ring.
    destruct (Z.even (d / 7)); cbn [Bool.eqb]; rewrite (line_cell _ y p off (d / 7 / 2)) by auto; reflexivity.
Qed.
Lemma line_pixels k (main aux : mem) y p off d : visible_xy 0 y -> hires_offset 0 y = 256 * p + off -> 0 <= off < 256 ->
  0 <= d <= 556 -> (k = HGR -> 0 < d) ->
  pixel_colour (row_dot k (main p) (aux p)) (14 * off + d) = pixel_colour (row_dot k (scan_line main y) (scan_line aux y)) d.
Proof.
  intros Hv E Ho Hd Hk. destruct (line_start p off y Hv E Ho) as (_ & _ & M4).
  assert (P : forall j, (j - (14 * off + d)) mod 4 = (j - d) mod 4).
  { intros j. apply Z.mod_divide in M4; [|lia]. destruct M4 as [q ->].
    replace (j - (14 * (q * 4) + d)) with (j - d + (-14 * q) * 4) by ring. apply Z.mod_add. lia. }
  unfold pixel_colour. rewrite !P.
  assert (D : forall j, row_dot k (main p) (aux p) (14 * off + d + (j - d) mod 4) = row_dot k (scan_line main y) (scan_line aux y) (d + (j - d) mod 4)).
  { intros j. pose proof (Z.mod_pos_bound (j - d) 4 ltac:(lia)). rewrite <- Z.add_assoc. apply line_dots; auto; [lia|]. intros K. specialize (Hk K). lia. }
  rewrite !D. reflexivity.
Qed.
