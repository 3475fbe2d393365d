(** Rational enclosures of the L*a*b* values of the shipped palettes' colours
    (numbers found outside, checked here): all in units of 1/1000000. *)
From Coq Require Import Reals Lra Psatz.
From Verif Require Import Base ColourModel TableModel CieModel CieProofs.
Local Open Scope Z_scope.

Definition channel_certs : list (Z * (Z * Z)) := [
  (0, (0, 0)); (7, (2124, 2125)); (12, (3676, 3677)); (23, (8568, 8569)); (29, (12286, 12287)); (32, (14443, 14444));
  (34, (15996, 15997)); (51, (33104, 33105)); (54, (36889, 36890)); (55, (38204, 38205)); (67, (56128, 56129)); (77, (74213, 74214));
  (85, (90841, 90842)); (86, (93058, 93059)); (93, (109461, 109462)); (99, (124771, 124772)); (102, (132868, 132869)); (111, (158960, 158961));
  (119, (184474, 184475)); (125, (205078, 205079)); (126, (208636, 208637)); (129, (219526, 219527)); (133, (234550, 234551)); (136, (246201, 246202));
  (148, (296138, 296139)); (153, (318546, 318547)); (158, (341914, 341915)); (168, (391572, 391573)); (170, (401977, 401978)); (172, (412542, 412543));
  (188, (502886, 502887)); (200, (577580, 577581)); (206, (617206, 617207)); (212, (658374, 658375)); (221, (723055, 723056)); (225, (752942, 752943));
  (236, (838799, 838800)); (248, (938685, 938686)); (249, (947306, 947307)); (255, (1000000, 1000000))
].
Definition root_certs : list (rgb * ((Z * Z) * (Z * Z) * (Z * Z))) := [
  ((0, 0, 0), ((137931, 137932), (137931, 137932), (137931, 137932)));
  ((148, 12, 125), ((552680, 552682), (431618, 431621), (569466, 569468)));
  ((99, 77, 0), ((434554, 434556), (430180, 430183), (217853, 217855)));
  ((249, 86, 29), ((765396, 765397), (645442, 645443), (335402, 335406)));
  ((51, 111, 0), ((420149, 420152), (494228, 494230), (262020, 262022)));
  ((126, 126, 126), ((593101, 593103), (593102, 593104), (593127, 593129)));
  ((67, 200, 0), ((622865, 622867), (751845, 751847), (400465, 400466)));
  ((221, 206, 23), ((818114, 818115), (841450, 841452), (444596, 444599)));
  ((32, 54, 212), ((525539, 525541), (425391, 425394), (833471, 833473)));
  ((188, 55, 255), ((750341, 750342), (591023, 591024), (960462, 960463)));
  ((255, 129, 236), ((877536, 877538), (754901, 754903), (918141, 918142)));
  ((7, 168, 225), ((662819, 662820), (694403, 694405), (887966, 887968)));
  ((158, 172, 255), ((790210, 790212), (760549, 760550), (974043, 974044)));
  ((93, 248, 133), ((763561, 763562), (892746, 892748), (676382, 676383)));
  ((255, 255, 255), ((999998, 999999), (999999, 1000000), (1000042, 1000043)));
  ((221, 0, 51), ((684012, 684013), (538495, 538496), (346868, 346872)));
  ((136, 85, 34), ((524200, 524202), (491146, 491148), (304662, 304667)));
  ((255, 102, 0), ((785089, 785090), (675095, 675097), (318469, 318470)));
  ((0, 119, 0), ((410950, 410952), (509071, 509073), (272317, 272318)));
  ((85, 85, 85), ((449531, 449534), (449531, 449534), (449551, 449553)));
  ((0, 221, 0), ((647940, 647941), (802646, 802648), (429359, 429360)));
  ((255, 255, 0), ((932219, 932220), (975334, 975335), (502948, 502949)));
  ((0, 0, 153), ((392531, 392533), (284363, 284365), (652698, 652700)));
  ((221, 0, 221), ((766893, 766895), (590552, 590553), (863563, 863564)));
  ((170, 170, 170), ((738017, 738019), (738018, 738019), (738049, 738051)));
  ((255, 153, 136), ((843668, 843669), (770957, 770959), (644358, 644359)));
  ((34, 34, 255), ((587546, 587547), (443150, 443153), (956443, 956444)));
  ((102, 170, 255), ((736038, 736039), (729311, 729313), (972330, 972331)));
  ((0, 255, 153), ((758681, 758682), (903750, 903751), (729068, 729069)))
].

Fixpoint lookup {A B} (eqb : A -> A -> bool) (d : B) (k : A) (l : list (A * B)) : B :=
  match l with [] => d | (x, b) :: l' => if eqb k x then b else lookup eqb d k l' end.
Definition rgb_eqb (x y : rgb) : bool :=
  let '(a, b, c) := x in let '(d, e, f) := y in (a =? d) && (b =? e) && (c =? f).
Definition channel (v : Z) : Z * Z := lookup Z.eqb (0, 0) v channel_certs.
Definition roots (c : rgb) : (Z * Z) * (Z * Z) * (Z * Z) := lookup rgb_eqb ((0, 0), (0, 0), (0, 0)) c root_certs.

Definition unit := 1000000.
Definition channel_ok (v : Z) (b : Z * Z) : bool :=
  let '(lo, hi) := b in
  (0 <=? v) && (0 <=? lo) && (0 <=? hi) &&
  if 100000 * v <=? 4045 * 255 then
    (lo * (255 * 1292) <=? v * 100 * unit) && (v * 100 * unit <=? hi * (255 * 1292))
  else
    (lo ^ 5 * 269025 ^ 12 <=? (1000 * v + 14025) ^ 12 * unit ^ 5) && ((1000 * v + 14025) ^ 12 * unit ^ 5 <=? hi ^ 5 * 269025 ^ 12).
(** cube root of (mr r + mg g + mb b) / 10^7 / (w / 10^5) *)
Definition root_ok (mr mg mb w : Z) (r g b : Z * Z) (f : Z * Z) : bool :=
  let lo := mr * fst r + mg * fst g + mb * fst b in
  let hi := mr * snd r + mg * snd g + mb * snd b in
  (0 <=? fst f) && (0 <=? snd f) &&
  if hi =? 0 then (fst f * 116 <=? 16 * unit) && (16 * unit <=? snd f * 116)
  else (216 * (100 * w) * unit <? 24389 * lo) &&
       (fst f ^ 3 * (100 * w) <=? lo * unit ^ 2) && (hi * unit ^ 2 <=? snd f ^ 3 * (100 * w)).
Definition colour_ok (c : rgb) : bool :=
  let '(r, g, b) := c in
  let '(fx, fy, fz) := roots c in
  channel_ok r (channel r) && channel_ok g (channel g) && channel_ok b (channel b) &&
  root_ok 4124240 3575790 1804640 95047 (channel r) (channel g) (channel b) fx &&
  root_ok 2126560 7151580 721856 100000 (channel r) (channel g) (channel b) fy &&
  root_ok 193324 1191930 9504440 108883 (channel r) (channel g) (channel b) fz.
Record box := Box { x_l : Z * Z; x_a : Z * Z; x_b : Z * Z }.
Definition box_of (c : rgb) : box :=
  let '(fx, fy, fz) := roots c in
  Box (116 * fst fy - 16 * unit, 116 * snd fy - 16 * unit) (500 * (fst fx - snd fy), 500 * (snd fx - fst fy)) (200 * (fst fy - snd fz), 200 * (snd fy - fst fz)).
Definition box_small (x : box) : bool :=
  (- unit <=? fst (x_l x)) && (snd (x_l x) <=? 102 * unit) && (- (150 * unit) <=? fst (x_a x)) && (snd (x_a x) <=? 150 * unit) &&
  (- (150 * unit) <=? fst (x_b x)) && (snd (x_b x) <=? 150 * unit).
(** least distance between points of two intervals; greatest absolute value *)
Definition gap (u v : Z * Z) : Z := Z.max 0 (Z.max (fst u - snd v) (fst v - snd u)).
Definition most (u : Z * Z) : Z := Z.max (- fst u) (snd u).
Definition apart (x y : box) : bool :=
  let dl := gap (x_l x) (x_l y) in let da := gap (x_a x) (x_a y) in let db := gap (x_b x) (x_b y) in
  let d := 100000 * unit + 3375 * (most (x_a x) + most (x_b x) + most (x_a y) + most (x_b y)) in
  (0 <=? most (x_a x)) && (0 <=? most (x_b x)) && (0 <=? most (x_a y)) && (0 <=? most (x_b y)) &&
  (4 * 31684 * unit ^ 2 * d ^ 2 <=? 10000 * dl ^ 2 * d ^ 2 + 31684 * unit ^ 2 * 1330000000 * (da ^ 2 + db ^ 2)).
Definition palette_ok (pal : colour_name -> rgb) : bool :=
  forallb (fun c => colour_ok (pal c) && box_small (box_of (pal c))) all_colours &&
  forallb (fun c => forallb (fun d => rgb_eqb (pal c) (pal d) || apart (box_of (pal c)) (box_of (pal d))) all_colours) all_colours.
Lemma palettes_ok : palette_ok ntsc_rgb = true /\ palette_ok iigs_rgb = true.
Proof. split; vm_compute; reflexivity. Qed.

(** ** What the checks mean *)
Local Open Scope R_scope.
Definition within (x : R) (b : Z * Z) : Prop := IZR (fst b) / 1000000 <= x <= IZR (snd b) / 1000000.
Definition in_box (p : lab) (x : box) : Prop := within (l_l p) (x_l x) /\ within (l_a p) (x_a x) /\ within (l_b p) (x_b x).

Lemma pow_le_inv n x y : 0 <= x -> 0 <= y -> (0 < n)%nat -> x ^ n <= y ^ n -> x <= y.
Proof.
  intros X Y N H. destruct (Rle_or_lt x y) as [L|L]; [exact L|]. exfalso. assert (y ^ n < x ^ n); [|lra].
  clear H. induction n as [|n IH]; [lia|]. destruct n as [|n]; [simpl; lra|]. specialize (IH ltac:(lia)).
  change (y * y ^ S n < x * x ^ S n). assert (0 <= y ^ S n) by (apply pow_le, Y). nra.
Qed.
Lemma Rpower_pow_n x y n : 0 < x -> Rpower x y ^ n = Rpower x (y * INR n).
Proof. intros X. rewrite <- Rpower_pow by apply exp_pos. apply Rpower_mult. Qed.
Lemma Rpower_nonneg x y : 0 <= Rpower x y.
Proof. left. apply exp_pos. Qed.
Lemma fifth x : 0 < x -> Rpower x (24 / 10) ^ 5 = x ^ 12.
Proof.
  intros X. rewrite Rpower_pow_n by exact X. replace (24 / 10 * INR 5) with (INR 12) by (simpl; lra). apply Rpower_pow, X.
Qed.
Lemma third x : 0 < x -> Rpower x (1 / 3) ^ 3 = x.
Proof.
  intros X. rewrite Rpower_pow_n by exact X. replace (1 / 3 * INR 3) with (INR 1) by (simpl; lra). rewrite Rpower_pow by exact X. ring.
Qed.
Lemma channel_sound v b : channel_ok v b = true -> within (linear v) b /\ (0 <= fst b)%Z /\ (0 <= snd b)%Z.
Proof.
  destruct b as [lo hi]. unfold channel_ok, within, linear. cbn [fst snd]. rewrite !andb_true_iff. intros [[[V L] H] C].
  apply Z.leb_le in V, L, H. split; [|auto]. apply IZR_le in V, L, H.
  destruct (Z.leb_spec (100000 * v) (4045 * 255)) as [B|B].
  - apply andb_true_iff in C. destruct C as [C1 C2]. apply Z.leb_le in C1, C2. apply IZR_le in B, C1, C2. unfold unit in *. rewrite !mult_IZR in *.
    destruct (Rle_dec _ _) as [X|X]; [|exfalso; apply X; lra]. split; lra.
  - apply andb_true_iff in C. destruct C as [C1 C2]. apply Z.leb_le in C1, C2. apply IZR_lt in B. apply IZR_le in C1, C2. unfold unit in *.
    rewrite !mult_IZR, <- ?pow_IZR with (n := 5%nat) in *.
    destruct (Rle_dec _ _) as [X|X]; [exfalso; lra|]. clear X.
    set (x := (IZR v / 255 + 55 / 1000) / (1055 / 1000)). assert (XP : 0 < x) by (unfold x; lra).
    assert (N : (1000 * v + 14025)%Z = (1000 * v + 14025)%Z) by reflexivity.
    assert (E : IZR (1000 * v + 14025) = 269025 * x) by (rewrite plus_IZR, mult_IZR; unfold x; field).
    change 12%Z with (Z.of_nat 12) in *. change 5%Z with (Z.of_nat 5) in *. rewrite <- !pow_IZR in *. rewrite E in *. rewrite Rpow_mult_distr in C1, C2.
    pose proof (fifth x XP) as F. assert (K : 0 < 269025 ^ 12) by (apply pow_lt; lra). 
    assert (D1 : IZR lo ^ 5 <= x ^ 12 * 1000000 ^ 5). { apply (Rmult_le_reg_r (269025 ^ 12)); [exact K|]. rewrite (Rmult_comm (269025 ^ 12)) in C1. lra. }
    assert (D2 : x ^ 12 * 1000000 ^ 5 <= IZR hi ^ 5). { apply (Rmult_le_reg_r (269025 ^ 12)); [exact K|]. rewrite (Rmult_comm (269025 ^ 12)) in C2. lra. }
    rewrite <- F, <- Rpow_mult_distr in D1, D2. pose proof (Rpower_nonneg x (24 / 10)).
    apply pow_le_inv in D1; [|lra|lra|lia]. apply pow_le_inv in D2; [|lra|lra|lia]. lra.
Qed.
Lemma root_sound mr mg mb w r g b f lr lg lb : (0 <= mr)%Z -> (0 <= mg)%Z -> (0 <= mb)%Z -> (0 < w)%Z ->
  within lr r -> within lg g -> within lb b -> (0 <= fst r)%Z -> (0 <= fst g)%Z -> (0 <= fst b)%Z -> root_ok mr mg mb w r g b f = true ->
  within (lab_f ((IZR mr / 10000000 * lr + IZR mg / 10000000 * lg + IZR mb / 10000000 * lb) / (IZR w / 100000))) f.
Proof.
  intros Mr Mg Mb W Hr Hg Hb Pr Pg Pb. unfold root_ok.
  set (lo := (mr * fst r + mg * fst g + mb * fst b)%Z). set (hi := (mr * snd r + mg * snd g + mb * snd b)%Z).
  set (t := _ / (IZR w / 100000)). rewrite !andb_true_iff. intros [[F1 F2] C]. apply Z.leb_le in F1, F2. apply IZR_le in F1, F2.
  apply IZR_le in Mr, Mg, Mb, Pr, Pg, Pb. apply IZR_lt in W.
  assert (S : IZR lo / 1000000 <= IZR mr * lr + IZR mg * lg + IZR mb * lb <= IZR hi / 1000000).
  { unfold lo, hi, within in *. rewrite !plus_IZR, !mult_IZR. nra. }
  assert (T : t * (100 * IZR w) = IZR mr * lr + IZR mg * lg + IZR mb * lb) by (unfold t; field; lra).
  assert (LO : 0 <= IZR lo). { unfold lo. rewrite !plus_IZR, !mult_IZR. nra. }
  assert (TP : 0 <= t). { apply (Rmult_le_reg_r (100 * IZR w)); [lra|]. rewrite T. lra. }
  unfold within. destruct (Z.eqb_spec hi 0) as [E|E].
  - apply andb_true_iff in C. destruct C as [C1 C2]. apply Z.leb_le in C1, C2. apply IZR_le in C1, C2. unfold unit in *. rewrite !mult_IZR in *.
    assert (Z0 : t = 0). { rewrite E in S. apply (Rmult_eq_reg_r (100 * IZR w)); [|lra]. rewrite T. lra. }
    rewrite Z0. unfold lab_f. destruct (Rlt_dec (216 / 24389) 0) as [X|X]; [lra|]. split; lra.
  - rewrite !andb_true_iff in C. destruct C as [[C0 C1] C2]. apply Z.ltb_lt in C0. apply Z.leb_le in C1, C2. apply IZR_lt in C0. apply IZR_le in C1, C2.
    unfold unit in *. change 3%Z with (Z.of_nat 3) in *. rewrite !mult_IZR, <- !pow_IZR in *. change (IZR (1000000 ^ 2)) with (IZR 1000000000000) in *.
    assert (BIG : 216 / 24389 < t). { apply (Rmult_lt_reg_r (100 * IZR w)); [lra|]. rewrite T. lra. }
    unfold lab_f. destruct (Rlt_dec (216 / 24389) t) as [X|X]; [|contradiction].
    assert (T3 : Rpower t (1 / 3) ^ 3 = t) by (apply third; lra). pose proof (Rpower_nonneg t (1 / 3)) as RN. set (u := Rpower t (1 / 3)) in *.
    assert (D1 : (IZR (fst f) / 1000000) ^ 3 <= u ^ 3).
    { rewrite T3. apply (Rmult_le_reg_r (100 * IZR w)); [lra|]. rewrite T. replace ((IZR (fst f) / 1000000) ^ 3) with (IZR (fst f) ^ 3 / 1000000000000000000) by field. lra. }
    assert (D2 : u ^ 3 <= (IZR (snd f) / 1000000) ^ 3).
    { rewrite T3. apply (Rmult_le_reg_r (100 * IZR w)); [lra|]. rewrite T. replace ((IZR (snd f) / 1000000) ^ 3) with (IZR (snd f) ^ 3 / 1000000000000000000) by field. lra. }
    apply pow_le_inv in D1; [|lra|lra|lia]. apply pow_le_inv in D2; [|lra|lra|lia]. lra.
Qed.
Lemma colour_sound c : colour_ok c = true -> in_box (lab_of c) (box_of c).
Proof.
  destruct c as [[r g] b]. unfold colour_ok, box_of, lab_of. destruct (roots (r, g, b)) as [[fx fy] fz]. rewrite !andb_true_iff.
  intros [[[[[A B] C] X] Y] Z]. apply channel_sound in A, B, C. destruct A as (A & A1 & _). destruct B as (B & B1 & _). destruct C as (C & C1 & _).
  apply (root_sound _ _ _ _ _ _ _ _ (linear r) (linear g) (linear b)) in X; try assumption; try lia.
  apply (root_sound _ _ _ _ _ _ _ _ (linear r) (linear g) (linear b)) in Y; try assumption; try lia.
  apply (root_sound _ _ _ _ _ _ _ _ (linear r) (linear g) (linear b)) in Z; try assumption; try lia.
  replace (_ / (95047 / 100000)) with (rel_x (linear r) (linear g) (linear b)) in X by (unfold rel_x; field).
  replace (_ / (100000 / 100000)) with (rel_y (linear r) (linear g) (linear b)) in Y by (unfold rel_y; field).
  replace (_ / (108883 / 100000)) with (rel_z (linear r) (linear g) (linear b)) in Z by (unfold rel_z; field).
  unfold in_box, within in *. cbn [l_l l_a l_b x_l x_a x_b fst snd]. unfold unit. rewrite !minus_IZR, !mult_IZR, !minus_IZR. lra.
Qed.
Lemma gap_sound x y u v : within x u -> within y v -> (IZR (gap u v) / 1000000) ^ 2 <= (y - x) ^ 2.
Proof.
  unfold within. intros X Y. assert (G : 0 <= IZR (gap u v) / 1000000 /\ (IZR (gap u v) / 1000000 <= Rabs (y - x))).
  { pose proof (Rabs_pos (y - x)). pose proof (Rle_abs (y - x)). pose proof (Rle_abs (- (y - x))) as N. rewrite Rabs_Ropp in N.
    unfold gap. destruct (Z.max_spec 0 (Z.max (fst u - snd v) (fst v - snd u))) as [[M1 ->]|[M1 ->]];
    [apply IZR_lt in M1; destruct (Z.max_spec (fst u - snd v) (fst v - snd u)) as [[M2 E]|[M2 E]]; rewrite E in *; rewrite minus_IZR in *; lra|lra]. }
  rewrite <- (pow2_abs (y - x)). destruct G as [G1 G2]. apply pow_incr. lra.
Qed.
Lemma most_sound x u : within x u -> Rabs x <= IZR (most u) / 1000000.
Proof.
  unfold within, most. intros X. assert (A : IZR (- fst u) <= IZR (Z.max (- fst u) (snd u))) by (apply IZR_le; lia).
  assert (B : IZR (snd u) <= IZR (Z.max (- fst u) (snd u))) by (apply IZR_le; lia). rewrite opp_IZR in A.
  unfold Rabs. destruct (Rcase_abs x); lra.
Qed.
Lemma chroma_sum a b : chroma a b <= Rabs a + Rabs b.
Proof.
  unfold chroma. pose proof (Rabs_pos a). pose proof (Rabs_pos b). rewrite <- (sqrt_square (Rabs a + Rabs b)) by lra. apply sqrt_le_1_alt.
  rewrite <- (pow2_abs a), <- (pow2_abs b). nra.
Qed.
Lemma small_sound p x : in_box p x -> box_small x = true -> -1 <= l_l p <= 102 /\ -150 <= l_a p <= 150 /\ -150 <= l_b p <= 150.
Proof.
  unfold box_small, in_box, within, unit. rewrite !andb_true_iff, !Z.leb_le. intros (A & B & C) [[[[[D1 D2] D3] D4] D5] D6].
  apply IZR_le in D1, D2, D3, D4, D5, D6. change (IZR (- (1000000))) with (-1000000) in D1. change (IZR (102 * 1000000)) with 102000000 in D2.
  change (IZR (- (150 * 1000000))) with (-150000000) in D3, D5. change (IZR (150 * 1000000)) with 150000000 in D4, D6. lra.
Qed.
Lemma apart_sound p q x y : in_box p x -> in_box q y -> box_small x = true -> box_small y = true -> apart x y = true -> 2 <= cie2000 p q.
Proof.
  intros P Q BX BY A. pose proof (small_sound _ _ P BX) as SP. pose proof (small_sound _ _ Q BY) as SQ. 
  destruct P as (P1 & P2 & P3). destruct Q as (Q1 & Q2 & Q3). unfold apart in A.
  pose proof (gap_sound _ _ _ _ P1 Q1) as GL. pose proof (gap_sound _ _ _ _ P2 Q2) as GA. pose proof (gap_sound _ _ _ _ P3 Q3) as GB.
  pose proof (most_sound _ _ P2) as M1. pose proof (most_sound _ _ P3) as M2. pose proof (most_sound _ _ Q2) as M3. pose proof (most_sound _ _ Q3) as M4.
  pose proof (chroma_sum (l_a p) (l_b p)) as H1. pose proof (chroma_sum (l_a q) (l_b q)) as H2.
  set (dl := gap (x_l x) (x_l y)) in *. set (da := gap (x_a x) (x_a y)) in *. set (db := gap (x_b x) (x_b y)) in *.
  set (m := (most (x_a x) + most (x_b x) + most (x_a y) + most (x_b y))%Z) in *.
  assert (MM : IZR m = IZR (most (x_a x)) + IZR (most (x_b x)) + IZR (most (x_a y)) + IZR (most (x_b y))) by (unfold m; rewrite !plus_IZR; reflexivity).
  rewrite !andb_true_iff, !Z.leb_le in A. destruct A as [[[[N1 N2] N3] N4] A]. apply IZR_le in N1, N2, N3, N4, A.
  set (c := IZR m / 2000000).
  destruct (cie_bounds p q c) as [LB _]; [apply Rabs_le; lra|unfold c; lra|].
  eapply Rle_trans; [|exact LB]. rewrite <- (sqrt_square 2) by lra. apply sqrt_le_1_alt.
  set (k := 1 + 675 / 10000 * c). set (e := ((100000 * unit + 3375 * m)%Z)) in A.
  assert (E : IZR e = 100000000000 * k) by (unfold e, k, c, unit; rewrite plus_IZR, !mult_IZR; field).
  assert (KP : 1 <= k) by (unfold k, c; lra).
  unfold unit in A. rewrite !plus_IZR, !mult_IZR in A. rewrite !plus_IZR in A. change 2%Z with (Z.of_nat 2) in A. rewrite <- !pow_IZR in A. rewrite E in A.
  set (L2 := (l_l q - l_l p) ^ 2) in *. set (A2 := (l_a q - l_a p) ^ 2) in *. set (B2 := (l_b q - l_b p) ^ 2) in *.
  replace (((l_l q - l_l p) / (178 / 100)) ^ 2) with (L2 * (10000 / 31684)) by (unfold L2; field).
  assert (KK : 0 < k ^ 2) by (apply pow_lt; lra).
  apply (Rmult_le_reg_r (k ^ 2)); [exact KK|].
  replace ((L2 * (10000 / 31684) + 133 / 1000 * ((A2 + B2) / k ^ 2)) * k ^ 2) with (L2 * (10000 / 31684) * k ^ 2 + 133 / 1000 * (A2 + B2)) by (field; lra).
  assert (GL' : (IZR dl) ^ 2 <= 1000000000000 * L2) by (replace ((IZR dl / 1000000) ^ 2) with (IZR dl ^ 2 / 1000000000000) in GL by field; lra).
  assert (GA' : (IZR da) ^ 2 <= 1000000000000 * A2) by (replace ((IZR da / 1000000) ^ 2) with (IZR da ^ 2 / 1000000000000) in GA by field; lra).
  assert (GB' : (IZR db) ^ 2 <= 1000000000000 * B2) by (replace ((IZR db / 1000000) ^ 2) with (IZR db ^ 2 / 1000000000000) in GB by field; lra).
  rewrite Rpow_mult_distr in A. set (K2 := k ^ 2) in *. clearbody K2 L2 A2 B2.
  assert (X : IZR dl ^ 2 * K2 <= 1000000000000 * L2 * K2) by (apply Rmult_le_compat_r; lra).
  clear - A GA' GB' X. set (D2 := IZR dl ^ 2 * K2) in *. 
  replace (10000 * IZR dl ^ 2 * (100000000000 ^ 2 * K2)) with (100000000000000000000000000 * D2) in A by (unfold D2; ring).
  clearbody D2. lra.
Qed.
Lemma most_apart p q x y : in_box p x -> in_box q y -> box_small x = true -> box_small y = true -> cie2000 p q <= 800.
Proof.
  intros P Q BX BY. pose proof (small_sound _ _ P BX) as SP. pose proof (small_sound _ _ Q BY) as SQ.
  destruct (cie_bounds p q ((chroma (l_a p) (l_b p) + chroma (l_a q) (l_b q)) / 2)) as [_ UB]; [apply Rabs_le; lra|lra|].
  eapply Rle_trans; [exact UB|]. rewrite <- (sqrt_square 800) by lra. apply sqrt_le_1_alt.
  assert (SQR : forall u v w, -w <= u <= w -> -w <= v <= w -> (v - u) ^ 2 <= 4 * w ^ 2) by (intros; nra).
  pose proof (SQR (l_a p) (l_a q) 150 ltac:(lra) ltac:(lra)). pose proof (SQR (l_b p) (l_b q) 150 ltac:(lra) ltac:(lra)). pose proof (SQR (l_l p) (l_l q) 102 ltac:(lra) ltac:(lra)). lra.
Qed.
Lemma rgb_eqb_ok x y : rgb_eqb x y = true -> x = y.
Proof. destruct x as [[a b] c], y as [[d e] f]. unfold rgb_eqb. rewrite !andb_true_iff, !Z.eqb_eq. intros [[-> ->] ->]. reflexivity. Qed.
Lemma every_colour c : In c all_colours.
Proof. destruct c; unfold all_colours; cbn [In]; tauto. Qed.
Lemma palette_sound pal : palette_ok pal = true -> forall c1 c2,
  cie2000 (lab_of (pal c1)) (lab_of (pal c2)) <= 800 /\ (pal c1 <> pal c2 -> 2 <= cie2000 (lab_of (pal c1)) (lab_of (pal c2))).
Proof.
  unfold palette_ok. rewrite andb_true_iff, !forallb_forall. intros [A B] c1 c2.
  pose proof (A c1 (every_colour c1)) as A1. pose proof (A c2 (every_colour c2)) as A2. apply andb_true_iff in A1, A2. destruct A1 as [A1 S1], A2 as [A2 S2].
  apply colour_sound in A1, A2. split; [exact (most_apart _ _ _ _ A1 A2 S1 S2)|]. intros N.
  specialize (B c1 (every_colour c1)). rewrite forallb_forall in B. specialize (B c2 (every_colour c2)). apply orb_true_iff in B.
  destruct B as [B|B]; [apply rgb_eqb_ok in B; contradiction|]. exact (apart_sound _ _ _ _ A1 A2 S1 S2 B).
Qed.
