(** C80: the encoder on CPython's binary heap. *)
From Verif Require Import Base BaseFacts ScreenModel BitmapModel VideoModel HeapFacts OpcodeModel MovieModel HeapqModel HeapqSpec HeapqProofs.
From Coq Require Import Permutation Sorted.
Opaque TABLES.

Lemma reached_same content h : reached content h -> same content h.
Proof.
  induction 1 as [l|content h e R IH|content h e h' content' R IH E P].
  - apply same_heapify.
  - exact (same_push _ _ e IH).
  - destruct IH as [A B]. pose proof (heappop_ok h B) as K. rewrite E in K. destruct K as (K1 & K2 & _). split; [|exact K2].
    apply Permutation_cons_inv with (a := e). now rewrite <- P, A.
Qed.

(** After any history, popping yields a least entry of what is inside, and fails
    exactly if nothing is. *)
Theorem C80_pops_least : forall content h, reached content h ->
  (heappop h = None <-> content = []) /\
  forall e h', heappop h = Some (e, h') ->
    Forall (not_after e) content /\ exists content', Permutation content (e :: content') /\ reached content' h'.
Proof.
  intros content h R. destruct (reached_same content h R) as [A B]. pose proof (heappop_ok h B) as K. split.
  - split; intros E.
    + rewrite E in K. subst h. apply Permutation_sym, Permutation_nil in A. exact A.
    + subst content. apply Permutation_nil in A. subst h. reflexivity.
  - intros e h' E. rewrite E in K. destruct K as (K1 & K2 & K3). split; [exact (Permutation_Forall (Permutation_sym A) K3)|].
    exists h'. split; [now rewrite A|]. exact (r_pop content h e h' h' R E ltac:(now rewrite A)).
Qed.
Print Assumptions C80_pops_least.

(** [heapify], then popping until nothing is left, sorts. *)
Theorem C80_sorts : forall l, let out := heappop_all (length l) (heapify l) in Permutation l out /\ StronglySorted not_after out.
Proof.
  intros l. cbv zeta. pose proof (same_heapify l) as S. pose proof (proj2 S) as H. pose proof (same_length _ _ S) as L. rewrite L. destruct (heapify_ok l) as (_ & P & _).
  enough (K : forall n h, length h = n -> heap_from 0 h -> Permutation h (heappop_all n h) /\ StronglySorted not_after (heappop_all n h)).
  { destruct (K (length (heapify l)) (heapify l) eq_refl H) as [A B]. split; [now rewrite <- A, P|exact B]. }
  clear. induction n as [|n IH]; intros h L H; [destruct h; [split; [reflexivity|constructor]|discriminate]|].
  cbn [heappop_all]. pose proof (heappop_ok h H) as K. destruct (heappop h) as [[e r]|]; [|subst h; discriminate].
  destruct K as (K1 & K2 & K3). assert (LR : length r = n) by (apply Permutation_length in K1; cbn in K1; lia). destruct (IH r LR K2) as [A B].
  split; [now rewrite <- A|]. constructor; [exact B|]. apply (Permutation_Forall (Permutation_trans K1 (perm_skip e A))) in K3. now inversion K3.
Qed.
Print Assumptions C80_sorts.

(** Every conversion writes the same bytes, or fails in the same way, as in the
    model of all other properties, whose queue is a bag of entries. *)
Theorem C80_same_conversion : forall c audio frames, transcode_q c audio frames = transcode c audio frames.
Proof. exact transcode_same. Qed.
Print Assumptions C80_same_conversion.

Definition ent (k n o : Z) : entry := {| en_key := k; en_nonce := n; en_page := 0; en_off := o |}.
Example C80_case :
  let l := [ent (-3) 7 0; ent (-9) 1 1; ent (-3) 2 2; ent (-1) 0 3; ent (-9) 0 4; ent (-12) 255 5] in
  map en_off (heapify l) = [5; 4; 2; 3; 1; 0] /\ map en_off (heappop_all 6 (heapify l)) = [5; 4; 1; 2; 0; 3] /\
  map en_off (heappush (heapify l) (ent (-10) 0 6)) = [5; 4; 6; 3; 1; 0; 2] /\
  exists h', heappop (heappush (heapify l) (ent (-10) 0 6)) = Some (ent (-12) 255 5, h') /\ map en_off h' = [6; 4; 2; 3; 1; 0].
Proof. repeat split; try (vm_compute; reflexivity). eexists. split; vm_compute; reflexivity. Qed.
