(** Facts about the bag model of heapq. *)
From Verif Require Import Base BaseFacts VideoModel.
From Coq Require Import Permutation.

Lemma entry_lt_irrefl e : entry_lt e e = false.
Proof. unfold entry_lt. lia. Qed.
Lemma entry_lt_trans a b c : entry_lt a b = false -> entry_lt b c = false -> entry_lt a c = false.
Proof. unfold entry_lt. lia. Qed.

Lemma heap_pop_spec h : match heap_pop h with
  | None => h = []
  | Some (e, r) => Permutation h (e :: r) /\ Forall (fun x => entry_lt x e = false) h
  end.
Proof.
  induction h as [|x h IH]; [reflexivity|]. cbn [heap_pop].
  destruct (heap_pop h) as [[m r]|].
  - destruct IH as [P F]. destruct (entry_lt m x) eqn:E.
    + split.
      * rewrite P. apply perm_swap.
      * constructor; [|exact F]. unfold entry_lt in *; lia.
    + split; [reflexivity|]. constructor; [apply entry_lt_irrefl|].
      eapply Forall_impl; [|exact F]. intros y Hy. cbv beta in Hy. eapply entry_lt_trans; eauto.
  - subst h. split; [reflexivity|]. constructor; [apply entry_lt_irrefl|constructor].
Qed.

Lemma heap_pop_some h e r : heap_pop h = Some (e, r) ->
  Permutation h (e :: r) /\ Forall (fun x => entry_lt x e = false) h.
Proof. intros E. pose proof (heap_pop_spec h) as S. rewrite E in S. exact S. Qed.
Lemma heap_pop_none h : heap_pop h = None -> h = [].
Proof. intros E. pose proof (heap_pop_spec h) as S. rewrite E in S. exact S. Qed.

Lemma entry_lt_key a b : entry_lt a b = false -> en_key b <= en_key a.
Proof. unfold entry_lt. lia. Qed.

Lemma pop_all_perm n : forall h, length h = n -> Permutation h (pop_all n h).
Proof.
  induction n as [|n IH]; intros h Hn.
  - destruct h; [constructor|discriminate].
  - cbn [pop_all]. destruct (heap_pop h) as [[e r]|] eqn:E.
    + apply heap_pop_some in E. destruct E as [P _]. rewrite P. constructor. apply IH.
      apply Permutation_length in P. cbn in P. lia.
    + apply heap_pop_none in E. subst. discriminate.
Qed.

(** initial heap *)
Lemma heapify_in up rnd l : forall n h m, heapify_from up rnd n l = (h, m) ->
  (forall e, In e h -> In (en_page e, en_off e) l /\ up (en_page e) (en_off e) <> 0 /\ en_key e = - up (en_page e) (en_off e)) /\
  (forall p o, In (p, o) l -> up p o <> 0 -> exists e, In e h /\ en_page e = p /\ en_off e = o /\ en_key e = - up p o).
Proof.
  induction l as [|[p o] l IH]; intros n h m E; cbn [heapify_from] in E.
  - injection E as <- <-. split; [intros e []|intros p o []].
  - destruct (Z.eqb_spec (up p o) 0) as [Z0|N0].
    + destruct (IH _ _ _ E) as [H1 H2]. split.
      * intros e He. destruct (H1 e He) as (A & B & C). cbn [In]. auto.
      * intros p' o' [Eq|Hin] Hup; [injection Eq as <- <-; contradiction|]. apply H2; auto.
    + destruct (heapify_from up rnd (n + 1) l) as [h' m'] eqn:E'. injection E as <- <-.
      destruct (IH _ _ _ E') as [H1 H2]. split.
      * intros e [<-|He]; cbn [en_page en_off en_key]; [cbn [In]; auto|].
        destruct (H1 e He) as (A & B & C). cbn [In]; auto.
      * intros p' o' [Eq|Hin] Hup.
        -- injection Eq as <- <-. eexists. split; [left; reflexivity|]. cbn. auto.
        -- destruct (H2 p' o' Hin Hup) as (e & He & R). exists e. split; [right; auto|auto].
Qed.

Lemma candidates_spec delta rnd l : forall n h m, error_candidates delta rnd n l = (h, m) ->
  map en_off h = filter (fun o => delta o <? 0) l /\
  Forall (fun e => en_key e = delta (en_off e)) h.
Proof.
  induction l as [|o l IH]; intros n h m E; cbn [error_candidates] in E.
  - injection E as <- <-. split; [reflexivity|constructor].
  - cbn [filter]. destruct (delta o <? 0) eqn:D.
    + destruct (error_candidates delta rnd (n + 1) l) as [h' m'] eqn:E'. injection E as <- <-.
      destruct (IH _ _ _ E') as [H1 H2]. cbn [map en_off]. rewrite H1. split; [reflexivity|].
      constructor; [reflexivity|exact H2].
    + eapply IH; eauto.
Qed.
