(** The simulator's main loop. *)
From Verif Require Import Base BaseFacts SimModel SimSpec SimProofs SimRunModel SimRunSpec.

(** ** regions are areas *)
Definition base (a : Z) : Z := 256 * (a / 256).
Lemma base_le c a : (256 * c <=? base a) = (256 * c <=? a).
Proof. unfold base. destruct (Z.leb_spec (256 * c) a), (Z.leb_spec (256 * c) (256 * (a / 256))); try reflexivity; exfalso; dlia. Qed.
Lemma base_lt c a : (base a <? 256 * c) = (a <? 256 * c).
Proof. unfold base. destruct (Z.ltb_spec a (256 * c)), (Z.ltb_spec (256 * (a / 256)) (256 * c)); try reflexivity; exfalso; dlia. Qed.
Lemma base_end c a : (base a <=? 256 * c + 255) = (a <=? 256 * c + 255).
Proof. unfold base. destruct (Z.leb_spec a (256 * c + 255)), (Z.leb_spec (256 * (a / 256)) (256 * c + 255)); try reflexivity; exfalso; dlia. Qed.

Lemma region_base a : region_of (base a) = region_of a.
Proof.
  unfold region_of.
  assert (AL : forallb (fun r => (r_start r =? 256 * (r_start r / 256)) && (r_end r =? 256 * (r_end r / 256) + 255)) regions = true) by (vm_compute; reflexivity).
  rewrite forallb_forall in AL. revert AL. generalize (0%nat, @None nat). induction regions as [|r rs IH]; intros [i x] AL; [reflexivity|].
  cbn [fold_left]. assert (AR := AL r (or_introl eq_refl)). apply andb_true_iff in AR. destruct AR as [A1 A2].
  apply Z.eqb_eq in A1, A2. 
  assert (E : (r_start r <=? base a) && (base a <=? r_end r) = (r_start r <=? a) && (a <=? r_end r)).
  { rewrite A1, A2, base_le, base_end. reflexivity. }
  rewrite E. apply IH. intros y Hy. apply AL. right. exact Hy.
Qed.
Lemma base_div a : base a / 256 = a / 256.
Proof. unfold base. rewrite Z.mul_comm, Z.div_mul; [reflexivity|discriminate]. Qed.
Lemma area_base a : area_of (base a) = area_of a.
Proof.
  unfold area_of. change 0x100 with (256 * 1). change 0x200 with (256 * 2). change 0x400 with (256 * 4). change 0x800 with (256 * 8).
  change 0x2000 with (256 * 32). change 0x3000 with (256 * 48). change 0x4000 with (256 * 64). change 0x5000 with (256 * 80).
  change 0xc000 with (256 * 192). change 0xc100 with (256 * 193). change 0xc800 with (256 * 200). change 0xd000 with (256 * 208).
  change 0x10000 with (256 * 256). change (0 <=? base a) with (256 * 0 <=? base a). change (0 <=? a) with (256 * 0 <=? a).
  rewrite !base_le, !base_lt. change (256 * 1) with 256. rewrite base_div. reflexivity.
Qed.
Definition place (x : area) : option nat :=
  match x with ZeroPage => Some 0%nat | Stack => Some 1%nat | TextPage1 => Some 2%nat | HiRes1 => Some 3%nat | HiRes2 => Some 4%nat | IO => Some 5%nat
  | Slot n => Some (Z.to_nat (5 + n)) | ROM => Some 13%nat | Elsewhere => None end.
Definition place_back (x : option nat) : area :=
  match x with None => Elsewhere | Some 0%nat => ZeroPage | Some 1%nat => Stack | Some 2%nat => TextPage1 | Some 3%nat => HiRes1 | Some 4%nat => HiRes2 | Some 5%nat => IO
  | Some n => if (n <? 13)%nat then Slot (Z.of_nat n - 5) else ROM end.
Definition area_eqb (x y : area) : bool :=
  match x, y with ZeroPage, ZeroPage | Stack, Stack | TextPage1, TextPage1 | HiRes1, HiRes1 | HiRes2, HiRes2 | IO, IO | ROM, ROM | Elsewhere, Elsewhere => true
  | Slot a, Slot b => a =? b | _, _ => false end.
Lemma area_eqb_eq x y : area_eqb x y = true -> x = y.
Proof. destruct x, y; cbn; intros H; try discriminate; try reflexivity. apply Z.eqb_eq in H. subst. reflexivity. Qed.
Lemma same_region_eq x y : same_region x y = true <-> x = y.
Proof.
  destruct x as [i|], y as [j|]; cbn; split; intros H; try discriminate; try reflexivity.
  - apply Nat.eqb_eq in H. subst. reflexivity.
  - injection H as ->. apply Nat.eqb_refl.
Qed.
Lemma region_place a : 0 <= a < 0x10000 -> region_of a = place (area_of a) /\ area_of a = place_back (region_of a).
Proof.
  intros H. rewrite <- region_base, <- area_base. unfold base.
  assert (C : forallb (fun p => same_region (region_of (256 * p)) (place (area_of (256 * p))) && area_eqb (area_of (256 * p)) (place_back (region_of (256 * p)))) (zrange 256) = true)
    by (vm_compute; reflexivity).
  assert (B : 0 <= a / 256 < 256) by (clear - H; dlia).
  pose proof (forall_range _ _ C (a / 256) B) as Q. cbv beta in Q. apply andb_true_iff in Q. destruct Q as [Q1 Q2].
  split; [apply same_region_eq; exact Q1|apply area_eqb_eq; exact Q2].
Qed.
Lemma region_area a b : 0 <= a < 0x10000 -> 0 <= b < 0x10000 ->
  same_region (region_of a) (region_of b) = true <-> area_of a = area_of b.
Proof.
  intros Ha Hb. destruct (region_place a Ha) as [A1 A2], (region_place b Hb) as [B1 B2]. rewrite same_region_eq. split; congruence.
Qed.

(** ** the loop *)
Section Loop.
  Variables (cpu : Type) (pc : cpu -> Z) (step : cpu -> run cpu).
  Hypothesis HP : forall c, 0 <= pc c < 0x10000.

  Definition ok_cross (x : Z) (s : sim) (y : Z) : Prop :=
    area_of x = area_of y \/ In y entry_points \/ snd (a_read x s) = inl 0x60.
  Lemma is_entry y : existsb (Z.eqb y) entry_points = true <-> In y entry_points.
  Proof.
    rewrite existsb_exists. split; [intros (x & H & E); apply Z.eqb_eq in E; subst; exact H|].
    intros H. exists y. split; [exact H|apply Z.eqb_refl].
  Qed.
  Lemma intercept_ok old new s s1 : 0 <= old < 0x10000 -> 0 <= new < 0x10000 -> maybe_intercept old new s = (s1, None) -> ok_cross old s new.
  Proof.
    intros Ho Hn. unfold maybe_intercept. destruct (same_region _ _) eqn:R; [intros _; left; apply region_area; auto|].
    destruct (a_read old s) as [s' [b|e]] eqn:A; [|discriminate]. destruct (Z.eqb_spec b 0x60) as [->|NB]; cbn [negb andb].
    - intros _. right. right. rewrite A. reflexivity.
    - destruct (existsb (Z.eqb new) entry_points) eqn:E; cbn [negb]; [|discriminate]. intros _. right. left. apply is_entry. exact E.
  Qed.
  Lemma intercept_undefined old new s s1 x y : 0 <= old < 0x10000 -> 0 <= new < 0x10000 ->
    maybe_intercept old new s = (s1, Some (UndefinedEntryPoint x y)) ->
    x = old /\ y = new /\ ~ ok_cross old s new.
  Proof.
    intros Ho Hn. unfold maybe_intercept. destruct (same_region _ _) eqn:R; [discriminate|].
    destruct (a_read old s) as [s' [b|e]] eqn:A; [|discriminate]. destruct (Z.eqb_spec b 0x60) as [->|NB]; cbn [negb andb]; [discriminate|].
    destruct (existsb (Z.eqb new) entry_points) eqn:E; cbn [negb]; [discriminate|]. intros H. injection H as _ -> ->.
    split; [reflexivity|]. split; [reflexivity|]. intros [Q|[Q|Q]].
    - apply region_area in Q; auto. congruence.
    - apply is_entry in Q. congruence.
    - rewrite A in Q. injection Q as ->. contradiction.
  Qed.

  (** what follows a first instruction at [old] *)
  Definition last_of (old : Z) (s : sim) (l : list (Z * sim)) : Z * sim := last l (old, s).
  Lemma loop_facts : forall n c old s l c' s' st, 0 <= old < 0x10000 -> run_loop cpu pc step n c old s = (l, c', s', st) ->
    (forall x sx y sy, follows ((old, s) :: l) (x, sx) (y, sy) -> ok_cross x sx y) /\
    (forall x sx y sy, follows l (x, sx) (y, sy) -> x <> y) /\
    (forall y sy r, l = (y, sy) :: r -> y = pc c) /\
    match st with
    | Going => length l = n
    | Stopped => exists x sx r, l = r ++ [(x, sx)] /\ pc c' = x /\ s' = sx
    | Failed (UndefinedEntryPoint x y) => y = pc c' /\ x = fst (last l (old, s)) /\ ~ ok_cross x (snd (last l (old, s))) y
    | Failed (Device _) => True
    end.
  Proof.
    induction n as [|n IH]; intros c old s l c' s' st Ho E; cbn [run_loop] in E.
    - injection E as <- <- <- <-. split; [|split; [|split]].
      + intros x sx y sy (l1 & l2 & H). destruct l1 as [|z [|? ?]]; discriminate.
      + intros x sx y sy (l1 & l2 & H). destruct l1; discriminate.
      + discriminate.
      + reflexivity.
    - destruct (maybe_intercept old (pc c) s) as [s1 [f|]] eqn:M.
      + injection E as <- <- <- <-. split; [|split; [|split]].
        * intros x sx y sy (l1 & l2 & H). destruct l1 as [|z [|? ?]]; discriminate.
        * intros x sx y sy (l1 & l2 & H). destruct l1; discriminate.
        * discriminate.
        * destruct f as [x y|]; [|exact I]. apply intercept_undefined in M; auto. destruct M as (-> & -> & M). cbn [last fst snd]. auto.
      + pose proof (intercept_ok old (pc c) s s1 Ho (HP c) M) as OK.
        destruct (step c s1) as [s2 [c1|e]] eqn:SE.
        * destruct (Z.eqb_spec (pc c1) (pc c)) as [PE|PN].
          -- injection E as <- <- <- <-. split; [|split; [|split]].
             ++ intros x sx y sy (l1 & l2 & H). destruct l1 as [|z [|? [|? ?]]]; try discriminate. cbn [app] in H. injection H as <- <- <- <- _. exact OK.
             ++ intros x sx y sy (l1 & l2 & H). destruct l1 as [|z [|? ?]]; discriminate.
             ++ intros y sy r H. injection H as <- _ _. reflexivity.
             ++ exists (pc c), s2, []. auto.
          -- destruct (run_loop cpu pc step n c1 (pc c) s2) as [[[l1 c2] s3] st1] eqn:RL. injection E as <- <- <- <-.
             destruct (IH c1 (pc c) s2 l1 c2 s3 st1 (HP c) RL) as (F1 & F2 & F3 & F4). split; [|split; [|split]].
             ++ intros x sx y sy (m1 & m2 & H). destruct m1 as [|z m1]; cbn [app] in H.
                ** injection H as <- <- <- <- _. exact OK.
                ** injection H as _ H. apply (F1 x sx y sy). exists m1, m2. exact H.
             ++ intros x sx y sy (m1 & m2 & H). destruct m1 as [|z m1]; cbn [app] in H.
                ** injection H as <- <- H. rewrite (F3 y sy m2 H). auto.
                ** injection H as _ H. apply (F2 x sx y sy). exists m1, m2. exact H.
             ++ intros y sy r H. injection H as <- _ _. reflexivity.
             ++ destruct st1 as [| |[x y|e]].
                ** cbn [length]. congruence.
                ** destruct F4 as (x & sx & r & -> & P & Q). exists x, sx, ((pc c, s2) :: r). auto.
                ** destruct F4 as (P1 & P2 & P3). split; [exact P1|].
                   assert (LE : last ((pc c, s2) :: l1) (old, s) = last l1 (pc c, s2)).
                   { clear. revert s2. generalize (pc c). induction l1 as [|z l1 IHl]; intros p q; [reflexivity|].
                     change (last ((p, q) :: z :: l1) (old, s)) with (last (z :: l1) (old, s)). destruct z as [z1 z2]. rewrite IHl.
                     symmetry. destruct l1 as [|u l1']; [reflexivity|]. cbn [last]. clear. revert u. induction l1'; intros u; [reflexivity|]. cbn [last] in *. apply IHl1'. }
                   rewrite LE. auto.
                ** exact I.
        * injection E as <- <- <- <-. split; [|split; [|split]]; auto.
          -- intros x sx y sy (l1 & l2 & H). destruct l1 as [|z [|? [|? ?]]]; try discriminate. cbn [app] in H. injection H as <- <- <- <- _. exact OK.
          -- intros x sx y sy (l1 & l2 & H). destruct l1 as [|z [|? ?]]; discriminate.
          -- intros y sy r H. injection H as <- _ _. reflexivity.
  Qed.

  (** memory is only changed by accesses *)
  Lemma accesses_app l l' s : accesses (l ++ l') s = accesses l' (accesses l s).
  Proof. revert s. induction l as [|[a x] l IH]; intros s; [reflexivity|]. cbn [app accesses]. apply IH. Qed.
  Lemma intercept_accesses old new s : exists l, fst (maybe_intercept old new s) = accesses l s.
  Proof.
    unfold maybe_intercept. destruct (same_region _ _); [exists []; reflexivity|].
    exists [(old, None)]. cbn [accesses do_access]. destruct (a_read old s) as [s' [b|e]]; [|reflexivity].
    destruct (_ && _); reflexivity.
  Qed.
  Lemma loop_accesses : by_accesses step -> forall n c old s l c' s' st,
    run_loop cpu pc step n c old s = (l, c', s', st) -> exists al, s' = accesses al s.
  Proof.
    intros BA. induction n as [|n IH]; intros c old s l c' s' st E; cbn [run_loop] in E.
    - injection E as _ _ <- _. exists []. reflexivity.
    - destruct (intercept_accesses old (pc c) s) as (al & A). destruct (maybe_intercept old (pc c) s) as [s1 [f|]]; cbn [fst] in A.
      + injection E as _ _ <- _. exists al. exact A.
      + destruct (BA c s1) as (bl & B). destruct (step c s1) as [s2 [c1|e]]; cbn [fst] in B.
        * destruct (pc c1 =? pc c).
          -- injection E as _ _ <- _. exists (al ++ bl). rewrite accesses_app, <- A. exact B.
          -- destruct (run_loop cpu pc step n c1 (pc c) s2) as [[[l1 c2] s3] st1] eqn:RL. injection E as _ _ <- _.
             destruct (IH c1 (pc c) s2 l1 c2 s3 st1 RL) as (dl & Dl). exists ((al ++ bl) ++ dl). rewrite !accesses_app, <- A, <- B. exact Dl.
        * injection E as _ _ <- _. exists (al ++ bl). rewrite accesses_app, <- A. exact B.
  Qed.
End Loop.

(** ** the loader *)
Lemma load_other bytes : forall ram start a, a < start \/ start + Z.of_nat (length bytes) <= a -> load ram start bytes a = ram a.
Proof.
  induction bytes as [|b r IH]; intros ram start a H; [reflexivity|]. cbn [load]. cbn [length] in H. rewrite IH by lia.
  unfold upd1. destruct (Z.eqb_spec a start); [lia|reflexivity].
Qed.
Lemma load_in bytes : forall ram start i, (i < length bytes)%nat -> load ram start bytes (start + Z.of_nat i) = nth i bytes 0.
Proof.
  induction bytes as [|b r IH]; intros ram start i H; cbn [length] in H; [lia|]. cbn [load]. destruct i as [|i].
  - rewrite load_other by lia. replace (start + Z.of_nat 0) with start by lia. unfold upd1. rewrite Z.eqb_refl. reflexivity.
  - replace (start + Z.of_nat (S i)) with (start + 1 + Z.of_nat i) by lia. rewrite IH by lia. reflexivity.
Qed.
Lemma nth_firstn_lt (l : list Z) n i : (i < n)%nat -> nth i (firstn n l) 0 = nth i l 0.
Proof.
  revert n i. induction l as [|x l IH]; intros n i H; [rewrite firstn_nil; reflexivity|].
  destruct n as [|n]; [lia|]. destruct i as [|i]; [reflexivity|]. cbn [firstn nth]. apply IH. lia.
Qed.
