(** The server. *)
From Verif Require Import Base BaseFacts ServerModel ServerSpec.

Lemma upd_same {A} (f : nat -> A) c v : upd f c v c = v.
Proof. unfold upd. rewrite Nat.eqb_refl. reflexivity. Qed.
Lemma upd_other {A} (f : nat -> A) c v d : d <> c -> upd f c v d = f d.
Proof. intros H. unfold upd. destruct (Nat.eqb_spec d c); congruence. Qed.
Lemma after_snoc content es e : after content (es ++ [e]) = step (after content es) e.
Proof. unfold after. rewrite fold_left_app. reflexivity. Qed.
Lemma versions_snoc content es e : versions content (es ++ [e]) = versions content es ++ match e with Write l => [l] | _ => [] end.
Proof. unfold versions. rewrite flat_map_app. cbn [flat_map app]. rewrite app_nil_r. reflexivity. Qed.

(** connections are handled in order *)
Record ordered (s : server) : Prop := {
  o_queue : exists a, (a <= next s)%nat /\ queue s = seq a (next s - a) /\
     (forall c l, busy s = Some (c, l) -> S c = a /\ l <> []) /\
     (forall d, (a <= d)%nat -> flight s d = [] /\ got s d = [])
}.
(** what each client has been given *)
Record given (s : server) (vs : list (list Z)) : Prop := {
  g_file : In (file s) vs;
  g_data : forall c, exists v, In v vs /\ begins (got s c ++ flight s c) v /\
     (forall l, busy s = Some (c, l) -> got s c ++ flight s c ++ l = v) /\
     (finished s c -> gone s c = false -> got s c ++ flight s c = v)
}.
Lemma firstn_skipn_app {A} n (a b : list A) : (a ++ firstn n b) ++ skipn n b = a ++ b.
Proof. rewrite <- app_assoc, firstn_skipn. reflexivity. Qed.

Lemma step_ordered s e : ordered s -> ordered (step s e).
Proof.
  intros [(a & LE & Q & B & N)]. constructor. destruct e as [|c|l| |n|c n]; cbn [step].
  - exists a. cbn [queue next busy flight got]. split; [lia|]. split; [|split; [exact B|exact N]]. rewrite Q. replace (S (next s) - a)%nat with (S (next s - a)) by lia.
    rewrite seq_S. f_equal. f_equal. lia.
  - exists a. cbn [queue next busy flight got]. auto.
  - exists a. cbn [queue next busy flight got]. auto.
  - destruct (busy s) as [[c l]|] eqn:BS; [exists a; rewrite BS; auto|]. destruct (queue s) as [|c q] eqn:QS; [exists a; rewrite QS, BS; auto|].
    destruct (next s - a)%nat as [|d] eqn:D; [discriminate|]. cbn [seq] in Q. injection Q as -> ->.
    exists (S a). unfold pass_on. cbn [queue next busy flight got]. split; [lia|]. split; [f_equal; lia|]. split; [|intros d' H; apply N; lia].
    intros c' l'. destruct (file s); [discriminate|]. intros H. injection H as <- <-. split; [reflexivity|discriminate].
  - destruct (busy s) as [[c l]|] eqn:BS; [|exists a; rewrite BS; auto]. destruct (B c l eq_refl) as [BC BL]. destruct (gone s c) eqn:G; unfold pass_on; cbn [queue next busy flight got].
    + exists a. split; [lia|]. split; [exact Q|]. split; [discriminate|exact N].
    + exists a. split; [lia|]. split; [exact Q|]. split.
      * intros c' l'. destruct (skipn n l); [discriminate|]. intros H. injection H as <- <-. split; [exact BC|discriminate].
      * intros d H. rewrite upd_other by lia. apply N, H.
  - destruct (gone s c); [exists a; auto|]. exists a. cbn [queue next busy flight got]. split; [lia|]. split; [exact Q|]. split; [exact B|].
    intros d H. destruct (N d H) as [F G]. destruct (Nat.eq_dec d c) as [->|NE]; [rewrite !upd_same, F, G, firstn_nil, skipn_nil; auto|rewrite !upd_other by exact NE; auto].
Qed.
Lemma start_ordered content : ordered (start content).
Proof. constructor. exists O. cbn. split; [lia|]. split; [reflexivity|]. split; [discriminate|auto]. Qed.
Lemma after_ordered content es : ordered (after content es).
Proof. induction es as [|e es IH] using rev_ind; [apply start_ordered|]. rewrite after_snoc. apply step_ordered, IH. Qed.

(** the client is still to be served exactly if it is in the queue *)
Lemma pending s a c : (a <= next s)%nat -> queue s = seq a (next s - a) -> In c (queue s) <-> (a <= c < next s)%nat.
Proof. intros LE ->. rewrite in_seq. lia. Qed.

Lemma given_more s vs ws : given s vs -> given s (vs ++ ws).
Proof. intros [F D]. constructor; [apply in_or_app; auto|]. intros c. destruct (D c) as (v & I & R). exists v. split; [apply in_or_app; auto|exact R]. Qed.
Lemma begins_refl {A} (l : list A) : begins l l.
Proof. exists []. rewrite app_nil_r. reflexivity. Qed.

Lemma step_given s vs e : ordered s -> given s vs -> given (step s e) (vs ++ match e with Write l => [l] | _ => [] end).
Proof.
  intros O G. pose proof O as [(a & LE & Q & B & N)]. destruct e as [|c|l| |n|c n]; cbn [step].
  - rewrite app_nil_r. destruct G as [F D]. constructor; [exact F|]. intros c. destruct (D c) as (v & I & P & BB & FF). exists v. cbn [queue next busy flight got gone file]. split; [exact I|]. split; [exact P|].
    split; [exact BB|]. intros (C1 & C2 & C3). cbn [queue next busy] in *. apply FF. split; [|split; [|exact C3]].
    + unfold connected in *. cbn [next] in C1. destruct (Nat.eq_dec c (next s)) as [->|NE]; [|lia]. exfalso. apply C2, in_or_app. right. left. reflexivity.
    + intros H. apply C2, in_or_app. auto.
  - rewrite app_nil_r. destruct G as [F D]. constructor; [exact F|]. intros d. destruct (D d) as (v & I & P & BB & FF). exists v. cbn [queue next busy flight got gone file]. split; [exact I|]. split; [exact P|].
    split; [exact BB|]. intros FN. destruct (Nat.eq_dec d c) as [->|NE]; [rewrite upd_same; discriminate|rewrite upd_other by exact NE]. apply FF, FN.
  - apply given_more with (ws := [l]) in G. destruct G as [F D]. constructor; [apply in_or_app; right; left; reflexivity|]. intros d. destruct (D d) as (v & I & P & BB & FF). exists v. auto.
  - rewrite app_nil_r. destruct (busy s) as [[c l]|] eqn:BS; [exact G|]. destruct (queue s) as [|c q] eqn:QS; [exact G|]. pose proof G as [F D].
    assert (CA : c = a /\ (a < next s)%nat) by (destruct (next s - a)%nat eqn:X; [discriminate|]; cbn [seq] in Q; injection Q as -> _; lia). destruct CA as [-> CN].
    destruct (N a (le_n _)) as [FA GA]. constructor; [exact F|]. intros d. unfold pass_on. cbn [queue next busy flight got gone file].
    destruct (Nat.eq_dec d a) as [->|NE].
    + exists (file s). split; [exact F|]. rewrite FA, GA. split; [exists (file s); reflexivity|]. split.
      * intros l'. destruct (file s) eqn:FS; [discriminate|]. intros H. injection H as <-. reflexivity.
      * intros (C1 & C2 & C3) _. cbn [queue next busy] in *. destruct (file s) eqn:FS; [reflexivity|]. exfalso. apply C3. unfold in_service. cbn [busy]. eauto.
    + destruct (D d) as (v & I & P & BB & FF). exists v. split; [exact I|]. split; [exact P|]. split.
      * intros l'. destruct (file s); [discriminate|]. intros H. injection H as E _. congruence.
      * intros (C1 & C2 & C3). apply FF. split; [exact C1|]. cbn [queue] in C2. split; [rewrite QS; intros [H|H]; [congruence|exact (C2 H)]|]. intros (l' & H). congruence.
  - rewrite app_nil_r. destruct (busy s) as [[c l]|] eqn:BS; [|exact G]. pose proof G as [F D]. destruct (B c l eq_refl) as [BC BL].
    assert (CS : in_service s c) by (exists l; exact BS). destruct (gone s c) eqn:GC; unfold pass_on; (constructor; [exact F|]); intros d; destruct (D d) as (v & I & P & BB & FF); exists v; cbn [queue next busy flight got gone file].
    + split; [exact I|]. split; [exact P|]. split; [discriminate|]. intros (C1 & C2 & C3). destruct (Nat.eq_dec d c) as [->|NE]; [congruence|]. apply FF. split; [exact C1|]. split; [exact C2|].
      intros (l' & H). congruence.
    + destruct (Nat.eq_dec d c) as [->|NE].
      * rewrite upd_same. specialize (BB l BS). split; [exact I|]. split; [exists (skipn n l); rewrite !app_assoc, firstn_skipn_app, <- app_assoc; symmetry; exact BB|].
        split.
        -- intros l' H. destruct (skipn n l) eqn:SK; [discriminate|]. injection H as <-. rewrite <- SK. rewrite <- BB. f_equal. rewrite <- app_assoc, firstn_skipn. reflexivity.
        -- intros (C1 & C2 & C3) _. destruct (skipn n l) as [|z zs] eqn:SK; [|exfalso; apply C3; unfold in_service; cbn [busy]; eauto].
           rewrite <- BB. f_equal. f_equal. rewrite <- (firstn_skipn n l) at 2. rewrite SK, app_nil_r. reflexivity.
      * rewrite upd_other by exact NE. split; [exact I|]. split; [exact P|]. split.
        -- intros l' H. destruct (skipn n l); [discriminate|]. injection H as E _. congruence.
        -- intros (C1 & C2 & C3). apply FF. split; [exact C1|]. split; [exact C2|]. intros (l' & H). congruence.
  - rewrite app_nil_r. destruct (gone s c) eqn:GC; [exact G|]. destruct G as [F D]. constructor; [exact F|]. intros d. destruct (D d) as (v & I & P & BB & FF). exists v. cbn [queue next busy flight got gone file].
    assert (E : upd (got s) c (got s c ++ firstn n (flight s c)) d ++ upd (flight s) c (skipn n (flight s c)) d = got s d ++ flight s d).
    { destruct (Nat.eq_dec d c) as [->|NE]; [rewrite !upd_same; apply firstn_skipn_app|rewrite !upd_other by exact NE; reflexivity]. }
    rewrite E. split; [exact I|]. split; [exact P|]. split; [|exact FF]. intros l H. rewrite app_assoc, E, <- app_assoc. apply BB, H.
Qed.
Lemma start_given content : given (start content) [content].
Proof.
  constructor; [left; reflexivity|]. intros c. exists content. cbn. split; [auto|]. split; [exists content; reflexivity|]. split; [discriminate|]. intros (C & _). unfold connected in C. cbn in C. lia.
Qed.
Lemma after_given content es : given (after content es) (versions content es).
Proof.
  induction es as [|e es IH] using rev_ind; [apply start_given|]. rewrite after_snoc, versions_snoc. apply step_given; [apply after_ordered|exact IH].
Qed.
Lemma in_turn content es c d : let s := after content es in (c < d)%nat -> got s d ++ flight s d <> [] -> finished s c.
Proof.
  intros s L G. destruct (after_ordered content es) as [(a & LE & Q & B & N)]. fold s in LE, Q, B, N.
  assert (LD : (d < a)%nat). { destruct (Nat.lt_ge_cases d a) as [X|X]; [exact X|]. destruct (N d X) as [F1 F2]. rewrite F1, F2 in G. contradiction. }
  split; [unfold connected; lia|]. split; [intros I; apply (pending s a c LE Q) in I; lia|]. intros (l & H). destruct (B c l H). lia.
Qed.

(** ** A client that takes nothing *)
Lemma blocked s c l es : busy s = Some (c, l) -> l <> [] -> gone s c = false ->
  (forall e, In e es -> e <> Drop c /\ forall n, e <> Pass (S n)) ->
  let s' := fold_left step es s in busy s' = Some (c, l) /\ forall d, d <> c -> got s' d ++ flight s' d = got s d ++ flight s d.
Proof.
  intros B L G. revert s B G. induction es as [|e es IH]; intros s B G H; [split; [exact B|reflexivity]|]. cbn [fold_left]. cbv zeta.
  assert (X : busy (step s e) = Some (c, l) /\ gone (step s e) c = false /\ forall d, d <> c -> got (step s e) d ++ flight (step s e) d = got s d ++ flight s d).
  { destruct (H e (or_introl eq_refl)) as [H1 H2]. destruct e as [|c'|w| |n|c' n]; cbn [step].
    - cbn [busy gone got flight]. auto.
    - cbn [busy gone got flight]. split; [exact B|]. split; [rewrite upd_other; [exact G|congruence]|auto].
    - cbn [busy gone got flight]. auto.
    - rewrite B. auto.
    - rewrite B, G. destruct n as [|n]; [|exfalso; exact (H2 n eq_refl)]. unfold pass_on. cbn [firstn skipn busy gone got flight]. destruct l as [|z l]; [contradiction|]. split; [reflexivity|]. split; [exact G|].
      intros d ND. rewrite upd_other by exact ND. reflexivity.
    - destruct (gone s c') eqn:GC; [auto|]. cbn [busy gone got flight]. split; [exact B|]. split; [exact G|]. intros d ND.
      destruct (Nat.eq_dec d c') as [->|NE]; [rewrite !upd_same; apply firstn_skipn_app|rewrite !upd_other by exact NE; reflexivity]. }
  destruct X as (X1 & X2 & X3). destruct (IH (step s e) X1 X2 (fun e' I => H e' (or_intror I))) as [Y1 Y2]. split; [exact Y1|]. intros d ND. rewrite (Y2 d ND). apply X3, ND.
Qed.

(** ** Every client has its turn *)
Section Serving.
Variables (content : list Z) (sched : nat -> event).
Hypothesis SV : serves sched.
Local Notation st := (at_time content sched).
Lemma st_next t : st (S t) = step (st t) (sched t).
Proof. unfold at_time. rewrite seq_S, map_app. cbn [map Nat.add]. apply after_snoc. Qed.
Lemma st_ordered t : ordered (st t).
Proof. apply after_ordered. Qed.
(** once served, always served *)
Lemma finished_step s e c : ordered s -> finished s c -> finished (step s e) c.
Proof.
  intros O F. destruct (step_ordered s e O) as [(a' & LE' & Q' & B' & _)]. pose proof O as [(a & LE & Q & B & _)]. destruct F as (C1 & C2 & C3). unfold connected in *.
  assert (CA : (c < a)%nat). { destruct (Nat.lt_ge_cases c a) as [X|X]; [exact X|]. exfalso. apply C2, (pending s a c LE Q). lia. }
  destruct e as [|c'|l| |n|c' n]; cbn [step].
  - split; [unfold connected; cbn [next]; lia|]. cbn [queue]. split; [intros H; apply in_app_or in H; destruct H as [H|[H|[]]]; [exact (C2 H)|lia]|exact C3].
  - split; [exact C1|]. split; [exact C2|exact C3].
  - split; [exact C1|]. split; [exact C2|exact C3].
  - destruct (busy s) as [[c' l]|] eqn:BS; [split; auto|]. destruct (queue s) as [|c' q] eqn:QS; [split; [exact C1|split; [rewrite QS; exact C2|exact C3]]|].
    split; [exact C1|]. split; [intros H; apply C2; right; exact H|]. intros (l & H). unfold pass_on in H. cbn [busy] in H. destruct (file s); [discriminate|]. injection H as -> _. apply C2. left. reflexivity.
  - destruct (busy s) as [[c' l]|] eqn:BS; [|split; [exact C1|split; [exact C2|exact C3]]]. destruct (gone s c'); unfold pass_on; (split; [exact C1|split; [exact C2|]]); intros (l' & H); cbn [busy] in H; [discriminate|].
    destruct (skipn n l); [discriminate|]. injection H as -> _. apply C3. exists l. exact BS.
  - destruct (gone s c'); split; [exact C1|split; [exact C2|exact C3]|exact C1|split; [exact C2|exact C3]].
Qed.
Lemma finished_stays t t' c : finished (st t) c -> (t <= t')%nat -> finished (st t') c.
Proof. intros F L. induction L as [|t' L IH]; [exact F|]. rewrite st_next. apply finished_step; [apply st_ordered|exact IH]. Qed.
(** the request being handled comes to an end *)
Lemma busy_step s e c l : busy s = Some (c, l) -> busy (step s e) = Some (c, l) \/ (exists n, e = Pass n) .
Proof.
  intros B. destruct e as [|c'|w| |n|c' n]; cbn [step]; try (left; exact B); [rewrite B; left; exact B|right; eauto|]. destruct (gone s c'); left; exact B.
Qed.
Lemma pass_step s n c l : busy s = Some (c, l) -> (busy (step s (Pass n)) = None) \/ (exists l', busy (step s (Pass n)) = Some (c, l') /\ (length l' <= length l)%nat /\ ((0 < n)%nat -> l <> [] -> (length l' < length l)%nat)).
Proof.
  intros B. cbn [step]. rewrite B. destruct (gone s c); unfold pass_on; cbn [busy]; [left; reflexivity|]. destruct (skipn n l) as [|z zs] eqn:SK; [left; reflexivity|right].
  exists (z :: zs). split; [reflexivity|]. rewrite <- SK, skipn_length. split; [lia|]. intros N NE. destruct l; [contradiction|]. cbn [length]. lia.
Qed.
Lemma handled : forall x d t c l, length l = x -> (exists n, sched (t + d)%nat = Pass (S n)) -> busy (st t) = Some (c, l) -> exists t', (t <= t')%nat /\ busy (st t') = None /\ finished (st t') c.
Proof.
  assert (FIN : forall t c l, busy (st t) = Some (c, l) -> busy (st (S t)) = None -> finished (st (S t)) c).
  { intros t c l B BN. destruct (st_ordered t) as [(a & LE & Q & BB & _)]. destruct (BB c l B) as [AC _]. rewrite st_next in *.
    destruct (busy_step (st t) (sched t) c l B) as [H|(n & E)]; [congruence|]. rewrite E in *. cbn [step] in *. rewrite B in *.
    assert (NI : ~ In c (queue (st t))) by (intros I; apply (pending _ a c LE Q) in I; lia).
    destruct (gone (st t) c); unfold pass_on in *; cbn [queue next busy] in *; (split; [unfold connected; cbn [next]; lia|split; [exact NI|]]); intros (l' & H); cbn [busy] in H; congruence. }
  induction x as [x IHx] using lt_wf_ind. induction d as [d IHd] using lt_wf_ind. intros t c l X D B.
  destruct (busy (st (S t))) as [[c1 l1]|] eqn:BN; [|exists (S t); split; [lia|split; [exact BN|exact (FIN t c l B BN)]]].
  assert (SAME : c1 = c /\ (length l1 <= x)%nat /\ (d = 0%nat -> (length l1 < x)%nat)).
  { rewrite st_next in BN. destruct (st_ordered t) as [(a & LE & Q & BB & _)]. destruct (BB c l B) as [_ NE].
    destruct (busy_step (st t) (sched t) c l B) as [H|(n & E)].
    - rewrite H in BN. injection BN as <- <-. split; [reflexivity|]. split; [lia|]. intros ->. destruct D as (n & E). rewrite Nat.add_0_r in E.
      exfalso. rewrite E in H. destruct (pass_step (st t) (S n) c l B) as [P|(l' & P & _ & P2)]; [congruence|]. rewrite H in P. injection P as <-. specialize (P2 ltac:(lia) NE). lia.
    - rewrite E in BN. destruct (pass_step (st t) n c l B) as [P|(l' & P & P1 & P2)]; [congruence|]. rewrite P in BN. injection BN as <- <-. split; [reflexivity|]. split; [lia|].
      intros ->. destruct D as (n' & E'). rewrite Nat.add_0_r in E'. rewrite E in E'. injection E' as ->. specialize (P2 ltac:(lia) NE). lia. }
  destruct SAME as (-> & L1 & L2). destruct (Nat.eq_dec (length l1) x) as [EQ|NE].
  - destruct d as [|d]; [specialize (L2 eq_refl); lia|]. destruct (IHd d ltac:(lia) (S t) c l1 EQ) as (t' & LT & R); [replace (S t + d)%nat with (t + S d)%nat by lia; exact D|exact BN|]. exists t'. split; [lia|exact R].
  - destruct SV as [_ S2]. destruct (S2 (S t)) as (j & n & LJ & EJ). destruct (IHx (length l1) ltac:(lia) (j - S t)%nat (S t) c l1 eq_refl) as (t' & LT & R); [exists n; replace (S t + (j - S t))%nat with j by lia; exact EJ|exact BN|].
    exists t'. split; [lia|exact R].
Qed.
Lemma idle_again t : exists t', (t <= t')%nat /\ busy (st t') = None /\ (forall c, in_service (st t) c -> finished (st t') c).
Proof.
  destruct (busy (st t)) as [[c l]|] eqn:B.
  - destruct SV as [_ S2]. destruct (S2 t) as (j & n & LJ & EJ). destruct (handled (length l) (j - t) t c l eq_refl) as (t' & LT & R & F); [exists n; replace (t + (j - t))%nat with j by lia; exact EJ|exact B|].
    exists t'. split; [exact LT|]. split; [exact R|]. intros c' (l' & H). rewrite B in H. injection H as <- _. exact F.
  - exists t. split; [lia|]. split; [exact B|]. intros c (l & H). congruence.
Qed.
(** idle until the next Accept *)
Lemma accept_soon : forall d t, busy (st t) = None -> sched (t + d)%nat = Accept -> exists t', (t <= t')%nat /\ busy (st t') = None /\ sched t' = Accept.
Proof.
  induction d as [|d IH]; intros t B A; [exists t; rewrite Nat.add_0_r in A; auto|]. destruct (sched t) eqn:E;
    try (assert (BN : busy (st (S t)) = None) by (rewrite st_next, E; cbn [step]; first [exact B|rewrite B; exact B|destruct (gone _ _); exact B]);
         destruct (IH (S t) BN) as (t' & LT & R); [replace (S t + d)%nat with (t + S d)%nat by lia; exact A|exists t'; split; [lia|exact R]]).
  exists t. split; [lia|]. split; [exact B|exact E].
Qed.
Lemma everyone_served : forall c t, connected (st t) c -> exists t', (t <= t')%nat /\ finished (st t') c.
Proof.
  assert (H : forall x t c, connected (st t) c -> (exists a, queue (st t) = seq a (next (st t) - a) /\ (a <= next (st t))%nat /\ (S c - a)%nat = x) -> exists t', (t <= t')%nat /\ finished (st t') c).
  { induction x as [x IH] using lt_wf_ind. intros t c C (a & Q & LE & X).
    destruct (idle_again t) as (t1 & L1 & B1 & F1).
    destruct (in_dec Nat.eq_dec c (queue (st t))) as [I0|NI0].
    2:{ destruct (busy (st t)) as [[c0 l0]|] eqn:B0.
        - destruct (Nat.eq_dec c0 c) as [->|NE0]; [exists t1; split; [exact L1|apply F1; exists l0; exact B0]|]. exists t. split; [lia|]. split; [exact C|]. split; [exact NI0|]. intros (l & Y). congruence.
        - exists t. split; [lia|]. split; [exact C|]. split; [exact NI0|]. intros (l & Y). congruence. }
    assert (MONO : forall t t', (t <= t')%nat -> (next (st t) <= next (st t'))%nat /\ forall a a', queue (st t) = seq a (next (st t) - a) -> (a <= next (st t))%nat -> queue (st t') = seq a' (next (st t') - a') -> (a' <= next (st t'))%nat -> (a <= a')%nat \/ queue (st t) = []).
    { intros u u' LU. split.
      - induction LU as [|u' LU IHU]; [lia|]. rewrite st_next. assert (Y : (next (st u') <= next (step (st u') (sched u')))%nat); [|lia].
        destruct (sched u'); cbn [step]; unfold pass_on; repeat (match goal with |- context [match ?z with _ => _ end] => destruct z end); cbn [next]; lia.
      - intros b b' Q1 LB Q2 LB'. destruct (Nat.eq_dec b (next (st u))) as [->|NEb]; [right; rewrite Q1, Nat.sub_diag; reflexivity|left].
        destruct (Nat.le_gt_cases b b') as [|GT]; [assumption|exfalso].
        assert (FI : b' = b' -> forall v, (u <= v)%nat -> exists w, queue (st v) = seq w (next (st v) - w) /\ (w <= next (st v))%nat /\ (b <= w)%nat).
        { intros _ v LV. induction LV as [|v LV IHV]; [exists b; auto|]. destruct IHV as (w & W1 & W2 & W3). rewrite st_next. destruct (sched v); cbn [step].
          - exists w. cbn [queue next]. split; [|lia]. rewrite W1. replace (S (next (st v)) - w)%nat with (S (next (st v) - w)) by lia. rewrite seq_S. f_equal. f_equal. lia.
          - exists w. auto.
          - exists w. auto.
          - destruct (busy (st v)) as [[]|]; [exists w; auto|]. destruct (queue (st v)) as [|z q] eqn:QV; [exists w; rewrite QV; auto|]. destruct (next (st v) - w)%nat eqn:D; [discriminate|]. cbn [seq] in W1. injection W1 as -> ->.
            exists (S w). unfold pass_on. cbn [queue next]. split; [f_equal; lia|lia].
          - exists w. destruct (busy (st v)) as [[z l]|]; [|auto]. destruct (gone (st v) z); unfold pass_on; cbn [queue next]; auto.
          - exists w. destruct (gone (st v) c0); cbn [queue next]; auto. }
        destruct (FI eq_refl u' LU) as (w & W1 & W2 & W3). rewrite Q2 in W1. assert (LN : (next (st u') - b' = next (st u') - w)%nat) by (pose proof (f_equal (@length nat) W1) as E; rewrite !seq_length in E; exact E). lia. }
    destruct (st_ordered t1) as [(a1 & LE1 & Q1 & B1' & _)]. destruct (MONO t t1 L1) as [MN MQ].
    assert (C1 : connected (st t1) c) by (unfold connected in *; lia).
    destruct (in_dec Nat.eq_dec c (queue (st t1))) as [I|NI].
    - destruct SV as [S1 _]. destruct (S1 t1) as (j & LJ & EJ). destruct (accept_soon (j - t1) t1 B1) as (t2 & L2 & B2 & E2); [replace (t1 + (j - t1))%nat with j by lia; exact EJ|].
      destruct (st_ordered t2) as [(a2 & LE2 & Q2 & _ & _)]. destruct (MONO t1 t2 L2) as [MN2 MQ2]. pose proof (proj1 (pending _ a1 c LE1 Q1) I) as IC.
      assert (A12 : (a1 <= a2)%nat) by (destruct (MQ2 a1 a2 Q1 LE1 Q2 LE2) as [Y|Y]; [exact Y|rewrite Y in I; destruct I]).
      assert (A01 : (a <= a1)%nat). { destruct (MQ a a1 Q LE Q1 LE1) as [Y|Y]; [exact Y|]. rewrite Y in I0. destruct I0. }
      destruct (in_dec Nat.eq_dec c (queue (st t2))) as [I2|NI2].
      + pose proof (proj1 (pending _ a2 c LE2 Q2) I2) as IC2.
        assert (QN : queue (st (S t2)) = seq (S a2) (next (st (S t2)) - S a2) /\ next (st (S t2)) = next (st t2)).
        { rewrite st_next, E2. cbn [step]. rewrite B2. destruct (queue (st t2)) as [|z q] eqn:QV; [destruct I2|]. destruct (next (st t2) - a2)%nat eqn:D; [discriminate|]. cbn [seq] in Q2. injection Q2 as -> ->.
          unfold pass_on. cbn [queue next]. split; [f_equal; lia|reflexivity]. }
        destruct QN as [QN NN]. destruct (IH (S c - S a2)%nat ltac:(lia) (S t2) c) as (t' & LT & F).
        * unfold connected. rewrite NN. lia.
        * exists (S a2). split; [exact QN|]. rewrite NN. split; [lia|reflexivity].
        * exists t'. split; [lia|exact F].
      + exists t2. split; [lia|]. split; [unfold connected in *; lia|]. split; [exact NI2|]. intros (l & Y). congruence.
    - exists t1. split; [exact L1|]. split; [exact C1|]. split; [exact NI|]. intros (l & Y). congruence. }
  intros c t C. destruct (st_ordered t) as [(a & LE & Q & _)]. apply (H (S c - a)%nat t c C). exists a. split; [exact Q|]. split; [exact LE|reflexivity].
Qed.
End Serving.
