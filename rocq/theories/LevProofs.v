(** Facts about the modelled weighted Damerau-Levenshtein distance. *)
From Verif Require Import Base BaseFacts TableModel.

(** last position (1-based) at most [n] where [s] has [c]; 0 if none *)
Fixpoint last_occ (s : list Z) (n : nat) (c : Z) : Z :=
  match n with
  | O => 0
  | S m => if get1 s (Z.of_nat n) =? c then Z.of_nat n else last_occ s m c
  end.
Definition locc s (n : Z) c := last_occ s (Z.to_nat n) c.

Lemma last_occ_bound s n c : 0 <= last_occ s n c <= Z.of_nat n.
Proof. induction n as [|n IH]; cbn [last_occ]; [lia|]. destruct (_ =? _); lia. Qed.
Lemma locc_bound s n c : 0 <= n -> 0 <= locc s n c <= n.
Proof. intros. pose proof (last_occ_bound s (Z.to_nat n) c). unfold locc. lia. Qed.
Lemma locc_step s i c : 1 <= i ->
  locc s i c = if get1 s i =? c then i else locc s (i - 1) c.
Proof.
  intros. unfold locc. replace (Z.to_nat i) with (S (Z.to_nat (i - 1))) by lia.
  cbn [last_occ]. replace (Z.of_nat (S (Z.to_nat (i - 1)))) with i by lia. reflexivity.
Qed.
Lemma locc_char s n c : 0 <= n -> 0 < locc s n c -> get1 s (locc s n c) = c.
Proof.
  intros Hn. unfold locc. induction (Z.to_nat n) as [|m IH]; cbn [last_occ]; [lia|].
  destruct (Z.eqb_spec (get1 s (Z.of_nat (S m))) c); auto.
Qed.

Definition cell (cs : costs) (a b : list Z) (d : Z -> Z -> Z) (i j : Z) : Z :=
  let ci := get1 a i in
  let cj := get1 b j in
  let k := locc a (i - 1) cj in
  let l := locc b (j - 1) ci in
  let cost := if ci =? cj then 0 else c_sub cs ci cj in
  let m := Z.min (Z.min (d (i - 1) (j - 1) + cost) (d i (j - 1) + c_ins cs cj))
                 (d (i - 1) j + c_del cs ci) in
  if (0 <? k) && (0 <? l)
  then Z.min m (d (k - 1) (l - 1) + (d (i - 1) 0 - d k 0)
                + c_tr cs (get1 a k) (get1 b l) + (d 0 (j - 1) - d 0 l))
  else m.

Lemma cell_ext cs a b d d' i j : 1 <= i -> 1 <= j ->
  (forall x y, 0 <= x <= i -> 0 <= y <= j -> (x, y) <> (i, j) -> d x y = d' x y) ->
  cell cs a b d i j = cell cs a b d' i j.
Proof.
  intros Hi Hj H. unfold cell.
  pose proof (locc_bound a (i - 1) (get1 b j) ltac:(lia)) as Hk.
  pose proof (locc_bound b (j - 1) (get1 a i) ltac:(lia)) as Hl.
  set (k := locc a _ _) in *. set (l := locc b _ _) in *.
  assert (R : forall x y, 0 <= x <= i -> 0 <= y <= j -> x < i \/ y < j -> d x y = d' x y).
  { intros x y Hx Hy Hxy. apply H; auto. intros E; inversion E; lia. }
  rewrite (R (i - 1) (j - 1)), (R i (j - 1)), (R (i - 1) j), (R (i - 1) 0), (R k 0),
    (R 0 (j - 1)), (R 0 l) by lia.
  destruct (Z.ltb_spec 0 k), (Z.ltb_spec 0 l); cbn [andb]; auto.
  rewrite (R (k - 1) (l - 1)) by lia. reflexivity.
Qed.

Lemma upd2_eq {A} (f : Z -> Z -> A) i j v x y :
  upd2 f i j v x y = if (x =? i) && (y =? j) then v else f x y.
Proof. reflexivity. Qed.

(** generic: fold over [zrange2 1 (n+1)] with an index-dependent invariant *)
Lemma fold_range {S} (f : S -> Z -> S) (P : Z -> S -> Prop) n s : 0 <= n ->
  P 0 s -> (forall i s, 1 <= i <= n -> P (i - 1) s -> P i (f s i)) ->
  P n (fold_left f (zrange2 1 (n + 1)) s).
Proof.
  intros Hn H0 Hs. unfold zrange2.
  assert (G : forall m a s, P (a - 1) s -> 1 <= a -> a - 1 + Z.of_nat m <= n ->
            P (a - 1 + Z.of_nat m) (fold_left f (zrange_from a m) s)).
  { induction m as [|m IH]; intros a t Ht Ha Hm; cbn [zrange_from fold_left].
    - replace (a - 1 + Z.of_nat 0) with (a - 1) by lia. auto.
    - replace (a - 1 + Z.of_nat (Datatypes.S m)) with (a + 1 - 1 + Z.of_nat m) by lia.
      apply IH; [|lia|lia]. replace (a + 1 - 1) with a by lia. apply Hs; [lia|auto]. }
  specialize (G (Z.to_nat (n + 1 - 1)) 1 s H0 ltac:(lia) ltac:(lia)).
  replace (1 - 1 + Z.of_nat (Z.to_nat (n + 1 - 1))) with n in G by lia. exact G.
Qed.

Section DL.
  Variables (cs : costs) (a b : list Z).
  Let la := slen a. Let lb := slen b.

  (** the border as recurrences *)
  Definition border_ok (d : Z -> Z -> Z) : Prop :=
    d 0 0 = 0 /\
    (forall i, 1 <= i <= la -> d i 0 = d (i - 1) 0 + c_del cs (get1 a i)) /\
    (forall j, 1 <= j <= lb -> d 0 j = d 0 (j - 1) + c_ins cs (get1 b j)).

  Lemma border : border_ok (dl_border cs a b).
  Proof.
    unfold dl_border. fold la lb.
    assert (Hla : 0 <= la) by apply Zle_0_nat. assert (Hlb : 0 <= lb) by apply Zle_0_nat.
    pose (P1 := fun n (d : Z -> Z -> Z) => d 0 0 = 0 /\
       (forall i, 1 <= i <= n -> d i 0 = d (i - 1) 0 + c_del cs (get1 a i))).
    assert (H1 : P1 la (fold_left (fun d i => upd2 d i 0 (d (i - 1) 0 + c_del cs (get1 a i)))
              (zrange2 1 (la + 1)) (fun _ _ => 0))).
    { apply (fold_range _ P1); auto.
      - split; [reflexivity|lia].
      - intros i d Hi [H0 H]. split.
        + rewrite upd2_other; [auto|lia].
        + intros x Hx. destruct (Z.eq_dec x i) as [->|N].
          * rewrite upd2_same, upd2_other; [auto|lia].
          * rewrite !upd2_other; [apply H; lia|lia|lia]. }
    set (d1 := fold_left _ _ _) in *. clearbody d1. destruct H1 as [H0 H1].
    pose (P2 := fun n (d : Z -> Z -> Z) => d 0 0 = 0 /\
       (forall i, 1 <= i <= la -> d i 0 = d (i - 1) 0 + c_del cs (get1 a i)) /\
       (forall j, 1 <= j <= n -> d 0 j = d 0 (j - 1) + c_ins cs (get1 b j))).
    apply (fold_range _ P2); auto.
    - split; [auto|split; [auto|lia]].
    - intros j d Hj (G0 & G1 & G2). split; [|split].
      + rewrite upd2_other; [auto|lia].
      + intros x Hx. rewrite !upd2_other; [auto|lia|lia].
      + intros x Hx. destruct (Z.eq_dec x j) as [->|N].
        * rewrite upd2_same, upd2_other; [auto|lia].
        * rewrite !upd2_other; [apply G2; lia|lia|lia].
  Qed.

  Definition before (i j x y : Z) : Prop := 1 <= x /\ 1 <= y <= lb /\ (x < i \/ (x = i /\ y <= j)).
  Definition cells_ok (i j : Z) (d : Z -> Z -> Z) : Prop :=
    border_ok d /\ forall x y, before i j x y -> d x y = cell cs a b d x y.

  Lemma cells_step i j d : 1 <= i <= la -> 1 <= j <= lb -> cells_ok i (j - 1) d ->
    cells_ok i j (upd2 d i j (cell cs a b d i j)).
  Proof.
    intros Hi Hj [(B0 & B1 & B2) H]. split.
    - split; [|split].
      + rewrite upd2_other; [auto|lia].
      + intros x Hx. rewrite !upd2_other; [auto|lia|lia].
      + intros x Hx. rewrite !upd2_other; [auto|lia|lia].
    - intros x y Hxy. unfold before in *.
      destruct (Z.eq_dec x i) as [->|Nx]; [destruct (Z.eq_dec y j) as [->|Ny]|].
      + rewrite upd2_same. apply cell_ext; [lia|lia|].
        intros x y Hx Hy E. rewrite upd2_other; auto.
        destruct (Z.eq_dec x i), (Z.eq_dec y j); subst; auto; congruence.
      + rewrite upd2_other by lia. rewrite H by lia. apply cell_ext; [lia|lia|].
        intros x' y' Hx Hy E. rewrite upd2_other; auto. lia.
      + rewrite upd2_other by lia. rewrite H by lia. apply cell_ext; [lia|lia|].
        intros x' y' Hx Hy E. rewrite upd2_other; auto. lia.
  Qed.

  Lemma inner_ok i d da : 1 <= i <= la -> cells_ok (i - 1) lb d ->
    (forall c, da c = locc a (i - 1) c) ->
    let '(d', _) := fold_left (dl_inner cs a b i da) (zrange2 1 (lb + 1)) (d, 0) in
    cells_ok i lb d'.
  Proof.
    intros Hi H Hda.
    assert (Hlb : 0 <= lb) by apply Zle_0_nat.
    pose (P := fun j (s : (Z -> Z -> Z) * Z) => cells_ok i j (fst s) /\ snd s = locc b j (get1 a i)).
    assert (G : P lb (fold_left (dl_inner cs a b i da) (zrange2 1 (lb + 1)) (d, 0))).
    { apply (fold_range _ P); auto.
      - split; [|reflexivity]. cbn [fst]. destruct H as [HB H]. split; auto.
        intros x y Hxy. apply H. unfold before in *. lia.
      - intros j [d0 db] Hj [H0 H1]. cbn [fst snd] in *. split.
        + assert (E : fst (dl_inner cs a b i da (d0, db) j) = upd2 d0 i j (cell cs a b d0 i j)).
          { unfold dl_inner, cell. cbn [fst]. rewrite Hda, H1. reflexivity. }
          rewrite E. apply cells_step; auto.
        + cbn [dl_inner snd]. rewrite (locc_step b j) by lia. rewrite (Z.eqb_sym (get1 b j)).
          rewrite H1. reflexivity. }
    destruct (fold_left _ _ _) as [d' db']. exact (proj1 G).
  Qed.

  Definition final : Z -> Z -> Z :=
    fst (fold_left (dl_outer cs a b) (zrange2 1 (la + 1)) (dl_border cs a b, fun _ => 0)).

  Lemma final_ok : cells_ok la lb final.
  Proof.
    unfold final. assert (Hla : 0 <= la) by apply Zle_0_nat.
    pose (P := fun i (s : (Z -> Z -> Z) * (Z -> Z)) => cells_ok i lb (fst s) /\ forall c, snd s c = locc a i c).
    refine (proj1 (fold_range (dl_outer cs a b) P la _ Hla _ _)).
    - split; [|reflexivity]. cbn [fst]. split; [exact border|]. intros x y Hxy. unfold before in Hxy. lia.
    - intros i [d da] Hi [H0 H1]. cbn [fst snd] in *.
      pose proof (inner_ok i d da Hi H0 H1) as HI. unfold dl_outer. fold lb.
      destruct (fold_left _ _ _) as [d' db']. split; cbn [fst snd]; auto.
      intros c. rewrite (locc_step a i) by lia. unfold upd1. rewrite (Z.eqb_sym c).
      rewrite H1. reflexivity.
  Qed.

  Lemma dam_lev_final : dam_lev cs a b = final la lb.
  Proof. unfold dam_lev, final. fold la. destruct (fold_left _ _ _). reflexivity. Qed.

  Lemma final_cell i j : 1 <= i <= la -> 1 <= j <= lb -> final i j = cell cs a b final i j.
  Proof. intros. apply final_ok. unfold before. lia. Qed.
  Lemma final_border : border_ok final.
  Proof. exact (proj1 final_ok). Qed.
End DL.

(** ** Consequences *)
Definition pos_costs (cs : costs) : Prop :=
  (forall c, 0 < c_ins cs c) /\ (forall c, 0 < c_del cs c) /\ (forall c d, 0 < c_tr cs c d) /\
  (forall c d, 0 <= c_sub cs c d).

Definition same_cost (cs : costs) (x y : Z) : Prop := x = y \/ c_sub cs x y = 0.

Section Facts.
  Variables (cs : costs) (a b : list Z).
  Hypothesis HC : pos_costs cs.
  Let d := final cs a b.

  Lemma border_mono_l k i : 0 <= k <= i -> i <= slen a -> d k 0 <= d i 0.
  Proof.
    intros Hk Hi. destruct (final_border cs a b) as (_ & B & _). destruct HC as (_ & D & _).
    revert Hi. pattern i. apply (Zlt_lower_bound_ind _ k); [|lia].
    intros x IH Hx Hs. destruct (Z.eq_dec x k) as [->|N]; [lia|].
    fold d in B. rewrite (B x) by lia. specialize (IH (x - 1) ltac:(lia) ltac:(lia)). specialize (D (get1 a x)). lia.
  Qed.
  Lemma border_mono_r k j : 0 <= k <= j -> j <= slen b -> d 0 k <= d 0 j.
  Proof.
    intros Hk Hi. destruct (final_border cs a b) as (_ & _ & B). destruct HC as (D & _).
    revert Hi. pattern j. apply (Zlt_lower_bound_ind _ k); [|lia].
    intros x IH Hx Hs. destruct (Z.eq_dec x k) as [->|N]; [lia|].
    fold d in B. rewrite (B x) by lia. specialize (IH (x - 1) ltac:(lia) ltac:(lia)). specialize (D (get1 b x)). lia.
  Qed.

  Lemma zero_cells n : forall i j, (Z.to_nat (i + j) <= n)%nat -> 0 <= i <= slen a -> 0 <= j <= slen b ->
    0 <= d i j /\
    (d i j = 0 <-> i = j /\ forall t, 1 <= t <= i -> same_cost cs (get1 a t) (get1 b t)).
  Proof.
    induction n as [|n IH]; intros i j Hn Hi Hj.
    - assert (i = 0) by lia. assert (j = 0) by lia. subst.
      destruct (final_border cs a b) as (B0 & _). fold d in B0. rewrite B0. split; [lia|].
      split; [intros _; split; [auto|lia]|auto].
    - destruct (final_border cs a b) as (B0 & B1 & B2). fold d in B0, B1, B2.
      destruct HC as (Ci & Cd & Ct & Cs).
      destruct (Z.eq_dec i 0) as [->|Ni]; [destruct (Z.eq_dec j 0) as [->|Nj]|destruct (Z.eq_dec j 0) as [->|Nj]].
      + rewrite B0. split; [lia|]. split; [intros _; split; [auto|lia]|auto].
      + pose proof (border_mono_r 0 (j - 1) ltac:(lia) ltac:(lia)). rewrite B2 by lia. specialize (Ci (get1 b j)).
        split; [lia|]. split; [lia|intros [E _]; lia].
      + pose proof (border_mono_l 0 (i - 1) ltac:(lia) ltac:(lia)). rewrite B1 by lia. specialize (Cd (get1 a i)).
        split; [lia|]. split; [lia|intros [E _]; lia].
      + pose proof (final_cell cs a b i j ltac:(lia) ltac:(lia)) as E. fold d in E.
        destruct (IH (i - 1) (j - 1) ltac:(lia) ltac:(lia) ltac:(lia)) as [P1 Q1].
        destruct (IH i (j - 1) ltac:(lia) ltac:(lia) ltac:(lia)) as [P2 _].
        destruct (IH (i - 1) j ltac:(lia) ltac:(lia) ltac:(lia)) as [P3 _].
        unfold cell in E.
        pose proof (locc_bound a (i - 1) (get1 b j) ltac:(lia)) as Hk.
        pose proof (locc_bound b (j - 1) (get1 a i) ltac:(lia)) as Hl.
        set (k := locc a (i - 1) (get1 b j)) in *. set (l := locc b (j - 1) (get1 a i)) in *.
        specialize (Ci (get1 b j)). specialize (Cd (get1 a i)). specialize (Cs (get1 a i) (get1 b j)).
        set (cost := if get1 a i =? get1 b j then 0 else c_sub cs (get1 a i) (get1 b j)) in *.
        assert (Hc0 : 0 <= cost) by (unfold cost; destruct (_ =? _); lia).
        assert (Hc : cost = 0 <-> same_cost cs (get1 a i) (get1 b j)).
        { unfold cost, same_cost. destruct (Z.eqb_spec (get1 a i) (get1 b j)); [tauto|]. split; [auto|intros [?|?]; auto; congruence]. }
        clearbody cost. revert E.
        assert (T : 0 < k -> 0 < l -> 0 < d (k - 1) (l - 1) + (d (i - 1) 0 - d k 0) + c_tr cs (get1 a k) (get1 b l) + (d 0 (j - 1) - d 0 l)).
        { intros Hk0 Hl0. destruct (IH (k - 1) (l - 1) ltac:(lia) ltac:(lia) ltac:(lia)) as [P4 _].
          pose proof (border_mono_l k (i - 1) ltac:(lia) ltac:(lia)).
          pose proof (border_mono_r l (j - 1) ltac:(lia) ltac:(lia)).
          specialize (Ct (get1 a k) (get1 b l)). lia. }
        assert (V : d i j = (if (0 <? k) && (0 <? l) then d i j else d i j)) by (destruct (_ && _); auto).
        intros E.
        assert (W : 0 <= d i j /\ (d i j = 0 <-> d (i - 1) (j - 1) = 0 /\ cost = 0)).
        { destruct (Z.ltb_spec 0 k) as [Hk0|Hk0], (Z.ltb_spec 0 l) as [Hl0|Hl0]; cbn [andb] in E.
          - specialize (T Hk0 Hl0). set (tt := _ + _ + _ + _) in E, T. clearbody tt. clear - E T P1 P2 P3 Hc0 Ci Cd. lia.
          - clear - E P1 P2 P3 Hc0 Ci Cd. lia.
          - clear - E P1 P2 P3 Hc0 Ci Cd. lia.
          - clear - E P1 P2 P3 Hc0 Ci Cd. lia. }
        destruct W as [W0 W1]. split; [exact W0|]. rewrite W1, Q1, Hc. clear - Ni Nj Hi Hj. split.
        * intros [[E1 H1] H2]. split; [lia|]. intros t Ht. destruct (Z.eq_dec t i) as [->|N].
          -- assert (i = j) by lia. subst. exact H2.
          -- apply H1; lia.
        * intros [E1 H1]. subst j. split; [split; [auto|intros; apply H1; lia]|apply H1; lia].
  Qed.

  (** distance 0 exactly when the strings agree position by position, up to free
      substitutions *)
  Lemma dam_lev_zero : dam_lev cs a b = 0 <->
    length a = length b /\ forall t, (t < length a)%nat -> same_cost cs (nth t a 0) (nth t b 0).
  Proof.
    rewrite dam_lev_final. fold d.
    destruct (zero_cells _ (slen a) (slen b) (le_n _) ltac:(unfold slen; lia) ltac:(unfold slen; lia)) as [_ H].
    rewrite H. unfold slen. split.
    - intros [E H1]. split; [lia|]. intros t Ht. specialize (H1 (Z.of_nat t + 1) ltac:(lia)).
      unfold get1 in H1. replace (Z.to_nat (Z.of_nat t + 1 - 1)) with t in H1 by lia. exact H1.
    - intros [E H1]. split; [lia|]. intros t Ht. unfold get1. apply H1. lia.
  Qed.

  Lemma dam_lev_nonneg : 0 <= dam_lev cs a b.
  Proof.
    rewrite dam_lev_final. fold d.
    apply (zero_cells _ (slen a) (slen b) (le_n _)); unfold slen; lia.
  Qed.

  (** the cost of substituting position by position is an upper bound *)
  Lemma dam_lev_upper M : length a = length b -> (forall c e, c_sub cs c e <= M) -> 0 <= M ->
    dam_lev cs a b <= Z.of_nat (length a) * M.
  Proof.
    intros HL HM H0. rewrite dam_lev_final. fold d.
    assert (G : forall i, 0 <= i -> i <= slen a -> d i i <= i * M).
    { intros i Hi. pattern i. apply natlike_ind; [| |auto].
      - intros _. destruct (final_border cs a b) as (B0 & _). fold d in B0. lia.
      - intros x Hx IH Hs. pose proof (final_cell cs a b (x + 1) (x + 1) ltac:(lia)) as E.
        unfold slen in *. specialize (E ltac:(lia)). fold d in E. unfold Z.succ.
        assert (C : d (x + 1) (x + 1) <= d x x + M).
        { rewrite E. unfold cell. replace (x + 1 - 1) with x by lia.
          assert (Hc : (if get1 a (x + 1) =? get1 b (x + 1) then 0 else c_sub cs (get1 a (x + 1)) (get1 b (x + 1))) <= M)
            by (destruct (_ =? _); auto).
          destruct (_ && _); lia. }
        lia. }
    specialize (G (slen a) ltac:(unfold slen; lia) ltac:(lia)). unfold slen in *. rewrite <- HL. exact G.
  Qed.
End Facts.

(** symmetry *)
Definition flip_costs (cs : costs) : costs :=
  {| c_ins := c_del cs; c_del := c_ins cs; c_sub := fun x y => c_sub cs y x; c_tr := fun x y => c_tr cs y x |}.

Lemma dam_lev_sym_cells cs a b n : forall i j, (Z.to_nat (i + j) <= n)%nat ->
  0 <= i <= slen a -> 0 <= j <= slen b ->
  final cs a b i j = final (flip_costs cs) b a j i.
Proof.
  destruct (final_border cs a b) as (A0 & A1 & A2).
  destruct (final_border (flip_costs cs) b a) as (B0 & B1 & B2).
  induction n as [|n IH]; intros i j Hn Hi Hj.
  - assert (i = 0) by lia. assert (j = 0) by lia. subst. congruence.
  - destruct (Z.eq_dec i 0) as [->|Ni]; [destruct (Z.eq_dec j 0) as [->|Nj]|destruct (Z.eq_dec j 0) as [->|Nj]].
    + congruence.
    + rewrite A2, B1 by lia. rewrite (IH 0 (j - 1)) by lia. reflexivity.
    + rewrite A1, B2 by lia. rewrite (IH (i - 1) 0) by lia. reflexivity.
    + rewrite (final_cell cs a b) by lia. rewrite (final_cell (flip_costs cs) b a) by lia.
      unfold cell.
      pose proof (locc_bound a (i - 1) (get1 b j) ltac:(lia)) as Hk.
      pose proof (locc_bound b (j - 1) (get1 a i) ltac:(lia)) as Hl.
      set (k := locc a (i - 1) (get1 b j)) in *. set (l := locc b (j - 1) (get1 a i)) in *.
      cbn [c_ins c_del c_sub c_tr flip_costs].
      rewrite (Z.eqb_sym (get1 b j)).
      rewrite (IH (i - 1) (j - 1)), (IH i (j - 1)), (IH (i - 1) j), (IH (i - 1) 0), (IH k 0), (IH 0 (j - 1)), (IH 0 l) by lia.
      rewrite (andb_comm (0 <? l)).
      destruct (Z.ltb_spec 0 k), (Z.ltb_spec 0 l); cbn [andb].
      1: rewrite (IH (k - 1) (l - 1)) by lia.
      all: clear; lia.
Qed.

Lemma dam_lev_flip cs a b : dam_lev cs a b = dam_lev (flip_costs cs) b a.
Proof.
  rewrite !dam_lev_final. apply (dam_lev_sym_cells cs a b _ _ _ (le_n _)); unfold slen; lia.
Qed.

(** dam_lev depends on the cost functions pointwise only *)
Definition costs_eq (c1 c2 : costs) : Prop :=
  (forall x, c_ins c1 x = c_ins c2 x) /\ (forall x, c_del c1 x = c_del c2 x) /\
  (forall x y, c_sub c1 x y = c_sub c2 x y) /\ (forall x y, c_tr c1 x y = c_tr c2 x y).

Lemma dam_lev_costs c1 c2 a b : costs_eq c1 c2 -> dam_lev c1 a b = dam_lev c2 a b.
Proof.
  intros (E1 & E2 & E3 & E4).
  destruct (final_border c1 a b) as (A0 & A1 & A2).
  destruct (final_border c2 a b) as (B0 & B1 & B2).
  rewrite !dam_lev_final.
  assert (G : forall n i j, (Z.to_nat (i + j) <= n)%nat -> 0 <= i <= slen a -> 0 <= j <= slen b ->
    final c1 a b i j = final c2 a b i j).
  { induction n as [|n IH]; intros i j Hn Hi Hj.
    - assert (i = 0) by lia. assert (j = 0) by lia. subst. congruence.
    - destruct (Z.eq_dec i 0) as [->|Ni]; [destruct (Z.eq_dec j 0) as [->|Nj]|destruct (Z.eq_dec j 0) as [->|Nj]].
      + congruence.
      + rewrite A2, B2 by lia. rewrite (IH 0 (j - 1)) by lia. rewrite E1. reflexivity.
      + rewrite A1, B1 by lia. rewrite (IH (i - 1) 0) by lia. rewrite E2. reflexivity.
      + rewrite (final_cell c1 a b), (final_cell c2 a b) by lia.
        rewrite (cell_ext c1 a b _ (final c2 a b)).
        * unfold cell. rewrite E1, E2, E3, E4. reflexivity.
        * lia.
        * lia.
        * intros x y Hx Hy N. apply IH; [|lia|lia].
          assert (x <> i \/ y <> j) by (destruct (Z.eq_dec x i), (Z.eq_dec y j); subst; auto). lia. }
  apply (G _ _ _ (le_n _)); unfold slen; lia.
Qed.

Lemma dam_lev_sym cs a b : (forall c, c_ins cs c = c_del cs c) -> (forall x y, c_sub cs x y = c_sub cs y x) ->
  (forall x y, c_tr cs x y = c_tr cs y x) -> dam_lev cs a b = dam_lev cs b a.
Proof.
  intros H1 H2 H3. rewrite dam_lev_flip. apply dam_lev_costs. repeat split; cbn; auto.
Qed.
