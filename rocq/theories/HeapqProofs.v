(** CPython's heapq refines the bag of VideoModel. *)
From Verif Require Import Base BaseFacts ScreenModel ScreenSpec BitmapModel VideoModel HeapFacts OpcodeModel MovieModel HeapqModel.
From Coq Require Import Permutation.
Opaque TABLES all_pairs.

Definition parent (i : nat) : nat := Nat.div2 (i - 1).
Lemma parent_spec i : (0 < i)%nat -> (i = 2 * parent i + 1 \/ i = 2 * parent i + 2)%nat.
Proof. intros H. unfold parent. pose proof (Nat.div2_odd (i - 1)) as E. destruct (Nat.odd (i - 1)); cbn [Nat.b2n] in E; lia. Qed.
Lemma parent_of p i : (i = 2 * p + 1 \/ i = 2 * p + 2)%nat -> parent i = p.
Proof. intros H. assert (0 < i)%nat by lia. pose proof (parent_spec i ltac:(assumption)). lia. Qed.

(** [a] is not greater than [b] *)
Definition le (a b : entry) : Prop := entry_lt b a = false.
Lemma le_refl a : le a a.
Proof. apply entry_lt_irrefl. Qed.
Lemma le_trans a b c : le a b -> le b c -> le a c.
Proof. unfold le. intros H K. exact (entry_lt_trans c b a K H). Qed.
Lemma lt_le a b : entry_lt a b = true -> le a b.
Proof. unfold le, entry_lt. lia. Qed.
Lemma le_antisym a b : le a b -> le b a -> a = b.
Proof. unfold le, entry_lt. destruct a as [k n p o], b as [k' n' p' o']. cbn. intros H K. assert (k = k' /\ n = n' /\ p = p' /\ o = o') by lia. intuition congruence. Qed.

(** ** lists as arrays *)
Lemma put_length h : forall i x, length (put h i x) = length h.
Proof. induction h as [|y h IH]; intros [|i] x; cbn; auto. Qed.
Lemma at_put h : forall i j x, (i < length h)%nat -> at_ (put h i x) j = if Nat.eqb j i then x else at_ h j.
Proof. unfold at_. induction h as [|y h IH]; intros [|i] [|j] x H; cbn in *; try lia; auto. apply IH. lia. Qed.
Lemma at_put_same h i x : (i < length h)%nat -> at_ (put h i x) i = x.
Proof. intros H. rewrite at_put by exact H. now rewrite Nat.eqb_refl. Qed.
Lemma at_put_other h i j x : (i < length h)%nat -> j <> i -> at_ (put h i x) j = at_ h j.
Proof. intros H N. rewrite at_put by exact H. destruct (Nat.eqb_spec j i); [contradiction|reflexivity]. Qed.
Lemma put_perm h : forall i x, (i < length h)%nat -> Permutation (at_ h i :: put h i x) (x :: h).
Proof.
  unfold at_. induction h as [|y h IH]; intros [|i] x H; cbn in *; try lia; [apply perm_swap|].
  rewrite perm_swap. rewrite (IH i x) by lia. apply perm_swap.
Qed.
Lemma move_perm h i j x : (i < length h)%nat -> (j < length h)%nat -> i <> j -> Permutation (put (put h i (at_ h j)) j x) (put h i x).
Proof.
  intros I J N. apply Permutation_cons_inv with (a := at_ h j). apply Permutation_cons_inv with (a := at_ h i).
  pose proof (put_perm (put h i (at_ h j)) j x) as A. rewrite put_length, at_put_other in A by auto. specialize (A J).
  pose proof (put_perm h i (at_ h j) I) as B. pose proof (put_perm h i x I) as C.
  rewrite A. rewrite (perm_swap x (at_ h i)). rewrite B. rewrite (perm_swap (at_ h j) x). rewrite (perm_swap (at_ h j) (at_ h i)). now rewrite C.
Qed.
Lemma put_put h : forall i x y, put (put h i x) i y = put h i y.
Proof. induction h as [|z h IH]; intros [|i] x y; cbn; [reflexivity..|]. now rewrite IH. Qed.
Lemma put_at h : forall i, put h i (at_ h i) = h.
Proof. unfold at_. induction h as [|z h IH]; intros [|i]; cbn; [reflexivity..|]. now rewrite IH. Qed.

(** ** the heap order, for the nodes whose parent is at [s] or later *)
Definition heap_from (s : nat) (h : list entry) : Prop :=
  forall i, (0 < i < length h)%nat -> (s <= parent i)%nat -> le (at_ h (parent i)) (at_ h i).
Inductive under (s : nat) : nat -> Prop :=
| under_refl : under s s
| under_child p i : under s p -> (i = 2 * p + 1 \/ i = 2 * p + 2)%nat -> under s i.
Lemma under_ge s i : under s i -> (s <= i)%nat.
Proof. induction 1; lia. Qed.
Lemma under_parent s i : under s i -> (s < i)%nat -> under s (parent i).
Proof. intros U H. destruct U as [|p i U E]; [lia|]. now rewrite (parent_of p i E). Qed.

(** all but the node at [pos], whose content is to be [new] *)
Definition around (s : nat) (h : list entry) (pos : nat) : Prop :=
  (forall i, (0 < i < length h)%nat -> (s <= parent i)%nat -> i <> pos -> parent i <> pos -> le (at_ h (parent i)) (at_ h i)) /\
  (forall i, (0 < i < length h)%nat -> parent i = pos -> (s < pos)%nat -> le (at_ h (parent pos)) (at_ h i)).
Definition above (h : list entry) (pos : nat) (new : entry) : Prop := forall i, (0 < i < length h)%nat -> parent i = pos -> le new (at_ h i).

Lemma sink_ok s new : forall fuel h pos, (pos <= fuel)%nat -> (pos < length h)%nat -> under s pos -> around s h pos -> above h pos new ->
  let '(h', p) := sink fuel h s pos new in
  (p < length h')%nat /\ length h' = length h /\ Permutation (put h' p new) (put h pos new) /\ heap_from s (put h' p new).
Proof.
  assert (STOP : forall h pos, (pos < length h)%nat -> around s h pos -> above h pos new -> ((s < pos)%nat -> le (at_ h (parent pos)) new) -> under s pos ->
            (pos < length h)%nat /\ length h = length h /\ Permutation (put h pos new) (put h pos new) /\ heap_from s (put h pos new)).
  { intros h pos L [A1 A2] B C U. repeat split; auto. intros i. rewrite put_length. intros I PI. pose proof (under_ge _ _ U).
    pose proof (parent_spec i ltac:(lia)). rewrite !at_put by exact L.
    destruct (Nat.eqb_spec i pos) as [EI|NI], (Nat.eqb_spec (parent i) pos) as [E|NP].
    - lia.
    - rewrite EI in *. apply C. lia.
    - exact (B i I E).
    - exact (A1 i I PI NI NP). }
  induction fuel as [|fuel IH]; intros h pos F L U A B; cbn [sink].
  - apply STOP; auto. intros. lia.
  - destruct (Nat.ltb_spec s pos) as [SP|SP]; [|apply STOP; auto; intros; lia].
    fold (parent pos). pose proof (parent_spec pos ltac:(lia)) as PS. pose proof (under_parent _ _ U SP) as UP. pose proof (under_ge _ _ UP) as GE.
    destruct (entry_lt new (at_ h (parent pos))) eqn:LT; [|apply STOP; auto].
    set (h1 := put h pos (at_ h (parent pos))). pose proof (put_length h pos (at_ h (parent pos))) as L1. fold h1 in L1.
    assert (AT : forall j, at_ h1 j = if Nat.eqb j pos then at_ h (parent pos) else at_ h j) by (intros j; apply at_put; exact L).
    destruct A as [A1 A2]. specialize (IH h1 (parent pos) ltac:(lia) ltac:(lia) UP).
    assert (A' : around s h1 (parent pos)).
    { split; intros i I.
      - intros PI N1 N2. rewrite L1 in I. rewrite !AT. pose proof (parent_spec i ltac:(lia)).
        destruct (Nat.eqb_spec i pos) as [->|NI]; [contradiction|].
        destruct (Nat.eqb_spec (parent i) pos) as [E|NP]; [exact (A2 i I E SP)|exact (A1 i I PI NI NP)].
      - intros E S1. rewrite L1 in I. rewrite !AT. pose proof (parent_spec (parent pos) ltac:(lia)). pose proof (under_ge _ _ (under_parent _ _ UP S1)).
        destruct (Nat.eqb_spec (parent (parent pos)) pos); [lia|].
        assert (H1 : le (at_ h (parent (parent pos))) (at_ h (parent pos))) by (apply A1; lia).
        destruct (Nat.eqb_spec i pos) as [->|NI]; [exact H1|]. apply le_trans with (1 := H1). rewrite <- E. apply A1; try lia. }
    assert (B' : above h1 (parent pos) new).
    { intros i I E. rewrite L1 in I. rewrite AT. destruct (Nat.eqb_spec i pos) as [->|NI]; [exact (lt_le _ _ LT)|].
      apply le_trans with (1 := lt_le _ _ LT). rewrite <- E. apply A1; try lia. }
    specialize (IH A' B'). destruct (sink fuel h1 s (parent pos) new) as [h' p]. destruct IH as (P1 & P2 & P3 & P4).
    split; [exact P1|]. split; [lia|]. split; [|exact P4]. rewrite P3. apply move_perm; lia.
Qed.

Lemma lift_ok s : forall fuel h pos, (length h <= fuel + pos)%nat -> (pos < length h)%nat -> under s pos -> around s h pos ->
  let '(h', p) := lift fuel h pos in
  (p < length h')%nat /\ length h' = length h /\ under s p /\ around s h' p /\ (forall i, (0 < i < length h')%nat -> parent i <> p) /\
  forall x, Permutation (put h' p x) (put h pos x).
Proof.
  induction fuel as [|fuel IH]; intros h pos F L U A; cbn [lift]; [lia|].
  destruct (Nat.ltb_spec (2 * pos + 1) (length h)) as [C|C].
  2:{ split; [exact L|]. split; [reflexivity|]. split; [exact U|]. split; [exact A|]. split; [|reflexivity]. cbn [rbind].
      intros i I E. pose proof (parent_spec i ltac:(lia)). lia. }
  set (left := (2 * pos + 1)%nat) in *. set (c := if Nat.ltb (S left) (length h) && negb (entry_lt (at_ h left) (at_ h (S left))) then S left else left).
  assert (HC : (c < length h)%nat /\ (c = 2 * pos + 1 \/ c = 2 * pos + 2)%nat /\ forall i, (0 < i < length h)%nat -> parent i = pos -> le (at_ h c) (at_ h i)).
  { unfold c. destruct (Nat.ltb_spec (S left) (length h)) as [R|R]; cbn [andb].
    - destruct (entry_lt (at_ h left) (at_ h (S left))) eqn:E; cbn [negb]; (split; [lia|]; split; [lia|]); intros i I P; pose proof (parent_spec i ltac:(lia)) as PS; rewrite P in PS; destruct PS as [PS|PS].
      + rewrite PS. apply le_refl.
      + replace i with (S left) by lia. apply lt_le. exact E.
      + rewrite PS. exact E.
      + replace i with (S left) by lia. apply le_refl.
    - split; [lia|]. split; [lia|]. intros i I P. pose proof (parent_spec i ltac:(lia)). replace i with left by lia. apply le_refl. }
  clearbody c. destruct HC as (C1 & C2 & C3). pose proof (parent_of pos c C2) as PC.
  set (h1 := put h pos (at_ h c)). pose proof (put_length h pos (at_ h c)) as L1. fold h1 in L1.
  assert (AT : forall j, at_ h1 j = if Nat.eqb j pos then at_ h c else at_ h j) by (intros j; apply at_put; exact L).
  destruct A as [A1 A2]. pose proof (under_ge _ _ U) as GE.
  assert (A' : around s h1 c).
  { split; intros i I.
    - intros PI N1 N2. rewrite L1 in I. rewrite !AT. pose proof (parent_spec i ltac:(lia)).
      destruct (Nat.eqb_spec i pos) as [EI|NI], (Nat.eqb_spec (parent i) pos) as [E|NP].
      + lia.
      + rewrite EI in *. apply A2; try lia; auto.
      + exact (C3 i I E).
      + exact (A1 i I PI NI NP).
    - intros E S1. rewrite L1 in I. pose proof (parent_spec i ltac:(lia)). rewrite !AT, PC, Nat.eqb_refl. destruct (Nat.eqb_spec i pos) as [->|NI]; [lia|].
      rewrite <- E. apply A1; lia. }
  specialize (IH h1 c ltac:(lia) ltac:(lia) (under_child s pos c U C2) A'). destruct (lift fuel h1 c) as [h' p].
  destruct IH as (P1 & P2 & P3 & P4 & P5 & P6). split; [exact P1|]. split; [lia|]. split; [exact P3|]. split; [exact P4|]. split; [exact P5|].
  intros x. rewrite P6. apply move_perm; lia.
Qed.

Lemma siftup_ok h pos : (pos < length h)%nat -> heap_from (S pos) h -> length (siftup h pos) = length h /\ Permutation (siftup h pos) h /\ heap_from pos (siftup h pos).
Proof.
  intros L H. unfold siftup. assert (A : around pos h pos).
  { split; intros i I.
    - intros PI N1 N2. apply H; lia.
    - intros E S1. lia. }
  pose proof (lift_ok pos (length h) h pos ltac:(lia) L (under_refl pos) A) as K. destruct (lift (length h) h pos) as [h1 p].
  destruct K as (K1 & K2 & K3 & [K4 K4'] & K5 & K6). unfold siftdown. rewrite at_put_same by exact K1. set (new := at_ h pos).
  pose proof (put_length h1 p new) as L2.
  assert (A2 : around pos (put h1 p new) p).
  { split; intros i I; rewrite L2 in I.
    - intros PI N1 N2. rewrite !at_put_other by auto. apply K4; auto.
    - intros E S1. destruct (K5 i I E). }
  pose proof (sink_ok pos new p (put h1 p new) p ltac:(lia) ltac:(lia) K3 A2) as Q.
  assert (B2 : above (put h1 p new) p new) by (intros i I E; rewrite L2 in I; destruct (K5 i I E)).
  specialize (Q B2). destruct (sink p (put h1 p new) pos p new) as [h2 q]. destruct Q as (Q1 & Q2 & Q3 & Q4).
  rewrite put_length. split; [lia|]. split; [|exact Q4]. rewrite Q3, put_put, K6. unfold new. now rewrite put_at.
Qed.
Lemma heapify_ok h : length (heapify h) = length h /\ Permutation (heapify h) h /\ heap_from 0 (heapify h).
Proof.
  unfold heapify. assert (K : forall i g, (2 * i <= length g)%nat -> heap_from i g -> length (heapify_below i g) = length g /\ Permutation (heapify_below i g) g /\ heap_from 0 (heapify_below i g)).
  { induction i as [|i IH]; intros g L H; cbn [heapify_below]; [split; [reflexivity|split; [reflexivity|exact H]]|].
    destruct (siftup_ok g i ltac:(lia) H) as (A & B & C). destruct (IH (siftup g i) ltac:(lia) C) as (D & E & F). split; [lia|]. split; [now rewrite E|exact F]. }
  apply K.
  - pose proof (Nat.div2_odd (length h)). destruct (Nat.odd (length h)); cbn [Nat.b2n] in *; lia.
  - intros i I P. pose proof (parent_spec i ltac:(lia)). pose proof (Nat.div2_odd (length h)). destruct (Nat.odd (length h)); cbn [Nat.b2n] in *; lia.
Qed.
Lemma heappush_ok h e : heap_from 0 h -> Permutation (heappush h e) (e :: h) /\ heap_from 0 (heappush h e).
Proof.
  intros H. unfold heappush, siftdown. assert (L : length (h ++ [e]) = S (length h)) by (rewrite app_length; cbn; lia).
  assert (AT : forall i, (i < length h)%nat -> at_ (h ++ [e]) i = at_ h i) by (intros i I; unfold at_; now apply app_nth1).
  assert (A : around 0 (h ++ [e]) (length h)).
  { split; intros i I; rewrite L in I; pose proof (parent_spec i ltac:(lia)).
    - intros PI N1 N2. rewrite !AT by lia. apply H; lia.
    - intros E. lia. }
  assert (U : forall i, under 0 i).
  { intros i. induction i as [i IH] using lt_wf_ind. destruct i as [|i]; [constructor|]. pose proof (parent_spec (S i) ltac:(lia)) as E.
    apply under_child with (2 := E). apply IH. lia. }
  assert (EA : at_ (h ++ [e]) (length h) = e) by (unfold at_; rewrite app_nth2 by lia; now rewrite Nat.sub_diag).
  rewrite EA. pose proof (sink_ok 0 e (length h) (h ++ [e]) (length h) ltac:(lia) ltac:(lia) (U _) A) as Q.
  assert (B : above (h ++ [e]) (length h) e) by (intros i I E; rewrite L in I; pose proof (parent_spec i ltac:(lia)); lia).
  specialize (Q B). destruct (sink (length h) (h ++ [e]) 0 (length h) e) as [h2 q]. destruct Q as (Q1 & Q2 & Q3 & Q4). split; [|exact Q4].
  rewrite Q3. rewrite <- EA at 2. rewrite put_at. symmetry. apply Permutation_cons_append.
Qed.
Lemma heap_root h : heap_from 0 h -> forall i, (i < length h)%nat -> le (at_ h 0) (at_ h i).
Proof.
  intros H i. induction i as [i IH] using lt_wf_ind. intros I. destruct i as [|i]; [apply le_refl|].
  pose proof (parent_spec (S i) ltac:(lia)). apply le_trans with (at_ h (parent (S i))); [apply IH; lia|apply H; lia].
Qed.
Lemma heappop_ok h : heap_from 0 h -> match heappop h with
  | None => h = []
  | Some (e, r) => Permutation h (e :: r) /\ heap_from 0 r /\ Forall (le e) h
  end.
Proof.
  intros H. destruct h as [|x t]; [reflexivity|]. assert (N : x :: t <> []) by discriminate. pose proof (app_removelast_last e0 N) as E.
  pose proof (heap_root _ H) as R. assert (ALL : Forall (le x) (x :: t)).
  { apply Forall_forall. intros y Y. apply (In_nth _ _ e0) in Y. destruct Y as (i & I & <-). exact (R i I). }
  unfold heappop. set (z := last (x :: t) e0) in *. destruct (removelast (x :: t)) as [|top u] eqn:RL.
  - cbn [app] in E. injection E as E1 E2. subst t. unfold z. cbn [last]. split; [reflexivity|]. split; [intros i I; cbn in I; lia|exact ALL].
  - cbn [app] in E. injection E as E1 E2. subst top.
    assert (HS : heap_from 1 (z :: u)).
    { intros i I P. pose proof (parent_spec i ltac:(lia)). assert (X : forall j, (0 < j < length (z :: u))%nat -> at_ (z :: u) j = at_ (x :: t) j).
      { intros [|j] J; [lia|]. rewrite E2. unfold at_. cbn [nth]. symmetry. apply app_nth1. cbn in J. lia. }
      rewrite !X by lia. apply H; [|lia]. rewrite E2. cbn [length] in *. rewrite app_length. cbn. lia. }
    destruct (siftup_ok (z :: u) 0 ltac:(cbn; lia) HS) as (A & B & C). split; [|split; [exact C|exact ALL]].
    rewrite B, E2. apply perm_skip. symmetry. apply Permutation_cons_append.
Qed.

(** ** the bag and the heap *)
Definition same (bag h : list entry) : Prop := Permutation bag h /\ heap_from 0 h.
Lemma same_length bag h : same bag h -> length bag = length h.
Proof. intros [P _]. exact (Permutation_length P). Qed.
Lemma same_heapify h : same h (heapify h).
Proof. destruct (heapify_ok h) as (_ & P & H). split; [now symmetry|exact H]. Qed.
Lemma same_push bag h e : same bag h -> same (heap_push bag e) (heappush h e).
Proof. intros [P H]. destruct (heappush_ok h e H) as [A B]. split; [|exact B]. unfold heap_push. rewrite A. now apply perm_skip. Qed.
Lemma same_pop bag h : same bag h -> match heap_pop bag, heappop h with
  | None, None => True
  | Some (e, r), Some (e', r') => e = e' /\ same r r'
  | _, _ => False
  end.
Proof.
  intros [P H]. pose proof (heap_pop_spec bag) as A. pose proof (heappop_ok h H) as B. destruct (heap_pop bag) as [[e r]|], (heappop h) as [[e' r']|].
  - destruct A as [A1 A2], B as (B1 & B2 & B3). assert (EE : e = e').
    { apply le_antisym.
      - rewrite Forall_forall in A2. apply A2. apply (Permutation_in e' (Permutation_sym P)). apply (Permutation_in e' (Permutation_sym B1)). now left.
      - rewrite Forall_forall in B3. apply B3. apply (Permutation_in e P). apply (Permutation_in e (Permutation_sym A1)). now left. }
    split; [exact EE|]. split; [|exact B2]. subst e'. apply Permutation_cons_inv with (a := e). now rewrite <- A1, P, B1.
  - destruct A as [A1 _]. subst h. apply Permutation_sym, Permutation_nil in P. subst bag. apply Permutation_nil in A1. discriminate.
  - destruct B as (B1 & _). subst bag. apply Permutation_nil in P. subst h. apply Permutation_nil in B1. discriminate.
  - exact I.
Qed.
Lemma same_pop_all n : forall bag h, same bag h -> pop_all n bag = heappop_all n h.
Proof.
  induction n as [|n IH]; intros bag h S; [reflexivity|]. cbn [pop_all heappop_all]. pose proof (same_pop bag h S) as K.
  destruct (heap_pop bag) as [[e r]|], (heappop h) as [[e' r']|]; try contradiction; [|reflexivity]. cbn [rbind]. destruct K as [-> K]. f_equal. now apply IH.
Qed.
Lemma compute_error_same ed target page content dw is_aux rnd n :
  compute_error_q ed target page content dw is_aux rnd n = compute_error ed target page content dw is_aux rnd n.
Proof.
  unfold compute_error, compute_error_q. destruct (compute_delta_page ed target page content (dw page) is_aux) as [delta|]; [|reflexivity]. cbn [rbind].
  destruct (error_candidates delta rnd n (zrange 256)) as [h m]. now rewrite <- (same_pop_all (length h) h (heapify h) (same_heapify h)).
Qed.

(** results: equal, but for a heap *)
Definition alike {A B} (R : A -> B -> Prop) (x : res A) (y : res B) : Prop :=
  match x, y with Ok a, Ok b => R a b | Raise e, Raise e' => e = e' | _, _ => False end.
Lemma alike_assert {A B} (R : A -> B -> Prop) b x y : alike R x y -> alike R (assert_ b x) (assert_ b y).
Proof. intros H. unfold assert_. destruct b; [exact H|reflexivity]. Qed.
Definition same_slots (x y : video * list entry * list Z) : Prop := fst (fst x) = fst (fst y) /\ same (snd (fst x)) (snd (fst y)) /\ snd x = snd y.
Lemma fill_same ed target is_aux page offset content rnd : forall cands n v bag h offsets, same bag h ->
  alike same_slots (fill_slots ed target is_aux page offset content rnd n cands v bag offsets) (fill_slots_q ed target is_aux page offset content rnd n cands v h offsets).
Proof.
  induction cands as [|c rest IH]; intros n v bag h offsets S; cbn [fill_slots fill_slots_q]; [split; [reflexivity|split; [exact S|reflexivity]]|].
  apply alike_assert, alike_assert, alike_assert. destruct (get_up v is_aux page (en_off c) =? 0); [now apply IH|].
  destruct (byte_offset (bm_kind target) (en_off c) is_aux) as [bo|]; [|reflexivity]. cbn [rbind].
  destruct (byte_pair_difference (bm_kind target) ed bo (bm_packed target page (en_off c / 2)) content) as [p|]; [|reflexivity]. cbn [rbind].
  set (v1 := set_up v is_aux (upd2 (get_up v is_aux) page (en_off c) p)). destruct (apply (v_pix v1) page (en_off c) is_aux content) as [pix|]; [|reflexivity]. cbn [rbind].
  set (e := {| en_key := u16_neg p; en_nonce := rnd n; en_page := page; en_off := en_off c |}).
  assert (S' : same (if p =? 0 then bag else heap_push bag e) (if p =? 0 then h else heappush h e)) by (destruct (p =? 0); [exact S|now apply same_push]).
  destruct (Z.of_nat (length (offsets ++ [en_off c])) =? 3); [split; [reflexivity|split; [exact S'|reflexivity]]|]. now apply IH.
Qed.

(** generators: equal, but for the order of the heap *)
Inductive same_gen : gen -> gen -> Prop :=
| same_start target is_aux : same_gen (GStart target is_aux) (GStart target is_aux)
| same_run target is_aux dw bag h : same bag h -> same_gen (GRun target is_aux dw bag) (GRun target is_aux dw h)
| same_pad content : same_gen (GPad content) (GPad content).
Definition same_step (x y : change * video * gen) : Prop := fst x = fst y /\ same_gen (snd x) (snd y).
Lemma pop_loop_same ed rnd target is_aux : forall fuel n v dw bag h, same bag h ->
  alike same_step (pop_loop fuel ed rnd n v target is_aux dw bag) (pop_loop_q fuel ed rnd n v target is_aux dw h).
Proof.
  induction fuel as [|fuel IH]; intros n v dw bag h S; cbn [pop_loop pop_loop_q];
    (destruct (bank_mem target match v_mode v with HGR => false | DHGR => is_aux end) as [tmem|]; [|reflexivity]; cbn [rbind]);
    pose proof (same_pop bag h S) as K; destruct (heap_pop bag) as [[e r]|], (heappop h) as [[e' r']|]; try contradiction.
  - reflexivity.
  - split; [reflexivity|constructor].
  - destruct K as [<- K]. apply alike_assert. destruct (get_up v is_aux (en_page e) (en_off e) =? 0); [now apply IH|]. apply alike_assert.
    set (v1 := set_up v is_aux (upd2 (get_up v is_aux) (en_page e) (en_off e) 0)). destruct (apply (v_pix v1) (en_page e) (en_off e) is_aux (tmem (en_page e) (en_off e))) as [pix|]; [|reflexivity]. cbn [rbind].
    rewrite compute_error_same. destruct (compute_error ed target (en_page e) (tmem (en_page e) (en_off e)) (upd2 dw (en_page e) (en_off e) 0) is_aux rnd n) as [[cands n1]|]; [|reflexivity]. cbn [rbind].
    pose proof (fill_same ed target is_aux (en_page e) (en_off e) (tmem (en_page e) (en_off e)) rnd cands n1 (set_pix v1 pix) r r' [en_off e] K) as F.
    destruct (fill_slots ed target is_aux (en_page e) (en_off e) (tmem (en_page e) (en_off e)) rnd n1 cands (set_pix v1 pix) r [en_off e]) as [[[v3 b3] o3]|],
      (fill_slots_q ed target is_aux (en_page e) (en_off e) (tmem (en_page e) (en_off e)) rnd n1 cands (set_pix v1 pix) r' [en_off e]) as [[[v3' b3'] o3']|]; try contradiction; [|exact F]; cbn [rbind].
    destruct F as (F1 & F2 & F3). cbn [fst snd] in F1, F2, F3. subst v3' o3'. split; [reflexivity|]. constructor. exact F2.
  - split; [reflexivity|constructor].
Qed.
Lemma next_same ed rnd v g g' : same_gen g g' -> alike same_step (next ed rnd v g) (next_q ed rnd v g').
Proof.
  intros [target is_aux|target is_aux dw bag h S|content]; unfold next, next_q.
  - destruct (bank_mem (v_pix v) is_aux) as [m|]; [|reflexivity]. cbn [rbind]. apply alike_assert. destruct (diff_weights ed target (v_pix v) is_aux) as [dw0|]; [|reflexivity].
    apply alike_assert. set (up := fun p o => _ + _). destruct (heapify_priorities up rnd) as [hp n]. rewrite <- (same_length _ _ (same_heapify hp)).
    apply pop_loop_same. apply same_heapify.
  - rewrite <- (same_length _ _ S). now apply pop_loop_same.
  - split; [reflexivity|constructor].
Qed.

(** ** the whole conversion *)
Definition same_enc (e e' : enc) : Prop :=
  e_at e = e_at e' /\ e_last e = e_last e' /\ e_target e = e_target e' /\ e_audio e = e_audio e' /\ e_frames e = e_frames e' /\
  match e_op_seq e, e_op_seq e' with Some g, Some g' => same_gen g g' | None, None => True | _, _ => False end.
Lemma new_frame_same c m e e' : same_enc e e' ->
  alike (fun x y => match x, y with Some (m1, e1), Some (m2, e2) => m1 = m2 /\ same_enc e1 e2 | None, None => True | _, _ => False end) (new_frame c m e) (new_frame c m e').
Proof.
  destruct e as [a l t o au fr], e' as [a' l' t' o' au' fr']. unfold same_enc. cbn. intros (-> & -> & -> & -> & -> & H). unfold new_frame. cbn.
  destruct fr' as [|f fr]; [exact I|].
  repeat match goal with
  | |- alike _ (match ?x with Ok _ => _ | Raise _ => _ end) _ => destruct x; [|reflexivity]
  | |- alike _ (if ?b then _ else _) _ => destruct b
  end; unfold same_enc; cbn; repeat split; auto. constructor.
Qed.
Lemma follow_bank_same m e e' : same_enc e e' -> alike same_enc (follow_bank m e) (follow_bank m e').
Proof.
  destruct e as [a l t o au fr], e' as [a' l' t' o' au' fr']. unfold same_enc. cbn. intros (-> & -> & -> & -> & -> & H). unfold follow_bank. cbn.
  destruct (Bool.eqb (m_aux m) l'); [unfold same_enc; cbn; repeat split; auto|]. destruct t'; [|reflexivity]. unfold same_enc; cbn; repeat split; auto. constructor.
Qed.
Definition same_out (x y : option opcode * movie * enc) : Prop := fst x = fst y /\ same_enc (snd x) (snd y).
Lemma tick_same c m e e' au : same_enc e e' -> alike same_out (tick_body c m e au) (tick_body_q c m e' au).
Proof.
  intros S. unfold tick_body, tick_body_q. set (due := c_clock c (m_ticks m + 1) (m_frame_number m)).
  set (m1 := {| m_pos := _; m_ticks := _; m_aux := _; m_frame_number := _; m_video := _ |}).
  assert (N : alike (fun x y => match x, y with Some (m1, e1), Some (m2, e2) => m1 = m2 /\ same_enc e1 e2 | None, None => True | _, _ => False end)
            (if due then new_frame c m1 e else Ok (Some (m1, e))) (if due then new_frame c m1 e' else Ok (Some (m1, e')))).
  { destruct due; [now apply new_frame_same|]. split; [reflexivity|exact S]. }
  destruct (if due then new_frame c m1 e else _) as [[[m2 e2]|]|], (if due then new_frame c m1 e' else _) as [[[m2' e2']|]|]; try contradiction; [| |exact N]; cbn [rbind].
  - destruct N as [<- N]. pose proof (follow_bank_same m2 e2 e2' N) as F. destruct (follow_bank m2 e2) as [e3|], (follow_bank m2 e2') as [e3'|]; try contradiction; [|exact F]; cbn [rbind].
    pose proof F as (F1 & F2 & F3 & F4 & F5 & F6). destruct (e_op_seq e3) as [g|], (e_op_seq e3') as [g'|]; try contradiction; [|reflexivity].
    pose proof (next_same (c_table c) (c_draws c (m_ticks m + 1)) (m_video m2) g g' F6) as X.
    destruct (next (c_table c) (c_draws c (m_ticks m + 1)) (m_video m2) g) as [[[ch v] g1]|], (next_q (c_table c) (c_draws c (m_ticks m + 1)) (m_video m2) g') as [[[ch' v'] g1']|]; try contradiction; [|exact X]; cbn [rbind].
    destruct X as [X1 X2]. cbn [fst snd] in X1, X2. injection X1 as <- <-. destruct ch as [[page content] offsets]. destruct (tick_opcode (au * 2 + 34) page content offsets) as [op|]; [|reflexivity]. cbn [rbind].
    split; [reflexivity|]. unfold same_enc. cbn. repeat split; assumption.
  - split; [reflexivity|]. destruct S as (F1 & F2 & F3 & F4 & F5 & F6). unfold same_enc. cbn. rewrite F2, F3, F4, F5. repeat split; assumption.
Qed.
Lemma encode_same c m e e' : same_enc e e' -> alike same_out (encode_next c m e) (encode_next_q c m e').
Proof.
  intros (F1 & F2 & F3 & F4 & F5 & F6). unfold encode_next, encode_next_q. rewrite <- F1, <- F2, <- F4.
  destruct (e_at e) eqn:A.
  - split; [reflexivity|]. unfold same_enc. cbn. rewrite F3, F5. repeat split; auto.
  - destruct (e_audio e) as [|au audio]; [split; [reflexivity|]; unfold same_enc; cbn; rewrite F3, F5; repeat split; auto|]. apply tick_same. unfold same_enc. cbn. repeat split; auto.
  - destruct (e_audio e) as [|au audio]; [split; [reflexivity|]; unfold same_enc; cbn; rewrite F3, F5; repeat split; auto|]. apply tick_same. unfold same_enc. cbn. repeat split; auto.
  - split; [reflexivity|]. unfold same_enc. cbn [fst snd]. rewrite A. repeat split; auto.
Qed.
Definition same_stream (s s' : stream) : Prop := s_out s = s_out s' /\ s_movie s = s_movie s' /\ same_enc (s_enc s) (s_enc s').
Definition same_outcome (x y : outcome) : Prop :=
  match x, y with More a s, More b s' => a = b /\ same_stream s s' | Finished a, Finished b => a = b | _, _ => False end.
Lemma step_same c s s' : same_stream s s' -> alike same_outcome (emit_step c s) (emit_step_q c s').
Proof.
  intros (S1 & S2 & S3). unfold emit_step, emit_step_q. rewrite <- S2, <- S1. pose proof (encode_same c (s_movie s) (s_enc s) (s_enc s') S3) as E.
  destruct (encode_next c (s_movie s) (s_enc s)) as [[[oop m1] e1]|], (encode_next_q c (s_movie s) (s_enc s')) as [[[oop' m1'] e1']|]; try contradiction; [|exact E]; cbn [rbind].
  destruct E as [E1 E2]. cbn [fst snd] in E1, E2. injection E1 as <- <-. destruct oop as [op|]; [|reflexivity].
  destruct (negb (c_max_bytes c =? 0) && (c_max_bytes c <=? m_pos m1)); [reflexivity|]. cbn [emit_bytes s_movie s_out s_enc].
  destruct (2044 <=? _); [apply alike_assert|]; (split; [reflexivity|]; split; [reflexivity|]; split; [reflexivity|exact E2]).
Qed.
Lemma stream_same c : forall fuel s s', same_stream s s' -> emit_stream fuel c s = emit_stream_q fuel c s'.
Proof.
  induction fuel as [|f IH]; intros s s' S; cbn [emit_stream emit_stream_q]; [reflexivity|]. pose proof (step_same c s s' S) as E.
  destruct (emit_step c s) as [[ops s1|b]|x], (emit_step_q c s') as [[ops' s1'|b']|x']; try contradiction; cbn [rbind].
  - destruct E as [_ E]. now apply IH.
  - now rewrite E.
  - now rewrite E.
Qed.
Theorem transcode_same c audio frames : transcode_q c audio frames = transcode c audio frames.
Proof.
  symmetry. apply stream_same. unfold same_stream, same_enc. cbn. repeat split; auto.
Qed.
