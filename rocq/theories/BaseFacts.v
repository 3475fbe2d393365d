(** Library facts about [Base]. *)
From Verif Require Import Base.

Lemma in_zrange_from a n x : In x (zrange_from a n) <-> a <= x < a + Z.of_nat n.
Proof.
  revert a; induction n as [|n IH]; intros a; cbn [zrange_from].
  - split; [intros [] | lia].
  - cbn [In]. rewrite IH. lia.
Qed.

Lemma in_zrange n x : 0 <= n -> In x (zrange n) <-> 0 <= x < n.
Proof. intros; unfold zrange; rewrite in_zrange_from; lia. Qed.

Lemma in_zrange2 a b x : In x (zrange2 a b) <-> a <= x < b.
Proof. unfold zrange2; rewrite in_zrange_from; lia. Qed.

Lemma zrange_from_length a n : length (zrange_from a n) = n.
Proof. revert a; induction n; intros; cbn; congruence || auto. Qed.

Lemma zrange_from_app a n m :
  zrange_from a (n + m) = zrange_from a n ++ zrange_from (a + Z.of_nat n) m.
Proof.
  revert a; induction n as [|n IH]; intros a; cbn [zrange_from plus app].
  - f_equal; lia.
  - rewrite IH. do 2 f_equal. f_equal. lia.
Qed.

Lemma zrange_from_nth a n i d :
  (i < n)%nat -> nth i (zrange_from a n) d = a + Z.of_nat i.
Proof.
  revert a i; induction n as [|n IH]; intros a i Hi; [lia|].
  destruct i; cbn [zrange_from nth]; [lia | rewrite IH; lia].
Qed.

Lemma zrange_from_NoDup a n : NoDup (zrange_from a n).
Proof.
  revert a; induction n as [|n IH]; intros a; cbn; constructor; auto.
  rewrite in_zrange_from; lia.
Qed.

(** Lifting a finite boolean sweep. *)
Lemma forall_range_from (P : Z -> bool) a n :
  forallb P (zrange_from a n) = true ->
  forall x, a <= x < a + Z.of_nat n -> P x = true.
Proof.
  intros H x Hx. rewrite forallb_forall in H. apply H, in_zrange_from; auto.
Qed.

Lemma forall_range (P : Z -> bool) n :
  forallb P (zrange n) = true -> forall x, 0 <= x < n -> P x = true.
Proof.
  intros H x Hx. apply (forall_range_from P 0 (Z.to_nat n)); auto; lia.
Qed.

Lemma forall_range2 (P : Z -> bool) a b :
  forallb P (zrange2 a b) = true -> forall x, a <= x < b -> P x = true.
Proof.
  intros H x Hx. rewrite forallb_forall in H. apply H, in_zrange2; auto.
Qed.

Lemma upd1_same {A} (f : Z -> A) i v : upd1 f i v i = v.
Proof. unfold upd1; now rewrite Z.eqb_refl. Qed.
Lemma upd1_other {A} (f : Z -> A) i j v : j <> i -> upd1 f i v j = f j.
Proof. unfold upd1; intros; destruct (Z.eqb_spec j i); congruence. Qed.
Lemma upd2_same {A} (f : Z -> Z -> A) i j v : upd2 f i j v i j = v.
Proof. unfold upd2; now rewrite !Z.eqb_refl. Qed.
Lemma upd2_other {A} (f : Z -> Z -> A) i j a b v :
  (a <> i \/ b <> j) -> upd2 f i j v a b = f a b.
Proof.
  unfold upd2; intros; destruct (Z.eqb_spec a i), (Z.eqb_spec b j); cbn; auto; lia.
Qed.
