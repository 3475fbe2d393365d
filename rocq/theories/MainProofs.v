(** Proofs about the options and the table files. *)
From Verif Require Import Base BaseFacts ScreenModel BitmapModel ColourModel TableModel TableSpec TableProofs PaletteFacts SymbolModel SymbolProofs OpcodeModel VideoModel MovieModel GrabberModel MainModel MainSpec.

Lemma teqb_refl s : text_eqb s s = true.
Proof. unfold text_eqb. induction s as [|c s IH]; [reflexivity|]. cbn. rewrite Z.eqb_refl. exact IH. Qed.
Lemma same_name k p : loaded_name k p = saved_name k p.
Proof. destruct k, p; reflexivity. Qed.
Lemma names_differ k p k' p' : text_eqb (saved_name k p) (saved_name k' p') = true -> k = k' /\ p = p'.
Proof. destruct k, p, k', p'; intros H; vm_compute in H; try discriminate; split; reflexivity. Qed.

Section Delta.
  Variable delta : rgb -> rgb -> Z.
  Hypothesis HD : good_delta delta.
  Lemma job_ok k pal : exists t, table_for delta k pal t.
  Proof.
    destruct (table_spec (compute_diff_matrix delta pal) k (match k with HGR => hgr_value | DHGR => dhgr_value end)) as (t & E & _).
    - destruct k; [left|right]; reflexivity.
    - apply palette_small, HD.
    - exists t. exact E.
  Qed.
  Lemma ops_shape : exists t1 t2 t3 t4,
    table_for delta HGR iigs_rgb t1 /\ table_for delta DHGR iigs_rgb t2 /\ table_for delta HGR ntsc_rgb t3 /\ table_for delta DHGR ntsc_rgb t4 /\
    table_ops delta = [Begin (saved_name HGR IIGS); Complete (saved_name HGR IIGS) t1; Begin (saved_name DHGR IIGS); Complete (saved_name DHGR IIGS) t2;
      Begin (saved_name HGR NTSC); Complete (saved_name HGR NTSC) t3; Begin (saved_name DHGR NTSC); Complete (saved_name DHGR NTSC) t4].
  Proof.
    destruct (job_ok HGR iigs_rgb) as (t1 & E1), (job_ok DHGR iigs_rgb) as (t2 & E2), (job_ok HGR ntsc_rgb) as (t3 & E3), (job_ok DHGR ntsc_rgb) as (t4 & E4).
    exists t1, t2, t3, t4. split; [exact E1|]. split; [exact E2|]. split; [exact E3|]. split; [exact E4|].
    unfold table_for in *. unfold table_ops, jobs, PALETTES, make_edit_distance. cbv beta iota zeta delta [flat_map fst snd app].
    rewrite E1, E2, E3, E4. reflexivity.
  Qed.
End Delta.
Lemma set_get fs f c g : set_file fs f c g = if text_eqb g f then Some c else fs g.
Proof. reflexivity. Qed.
Lemma right_table delta fs k p pal : good_delta delta -> colours_of p = Some pal ->
  exists t, load_table (make_tables delta fs) k p = Ok (edit_distances k t) /\ table_for delta k pal t.
Proof.
  intros HD HP. destruct (ops_shape delta HD) as (t1 & t2 & t3 & t4 & E1 & E2 & E3 & E4 & E). unfold load_table, make_tables. rewrite (same_name k p), E. clear E.
  cbv beta iota delta [fold_left file_do].
  destruct p; [discriminate HP| |]; injection HP as <-; destruct k; [exists t1|exists t2|exists t3|exists t4]; (split; [|assumption]); rewrite !set_get;
    repeat match goal with |- context [text_eqb ?a ?b] => let v := eval vm_compute in (text_eqb a b) in replace (text_eqb a b) with v by (vm_compute; reflexivity) end; cbv beta iota; reflexivity.
Qed.

(** ** Killed in between *)
(** every file is as before, incomplete, or right *)
Definition fine delta (fs fs' : files) : Prop := forall f, fs' f = fs f \/ fs' f = Some Incomplete \/
  exists k p pal t, f = saved_name k p /\ colours_of p = Some pal /\ table_for delta k pal t /\ fs' f = Some (Saved t).
Definition fine_op delta (op : file_op) : Prop := match op with
  | Begin _ => True
  | Complete f t => exists k p pal, f = saved_name k p /\ colours_of p = Some pal /\ table_for delta k pal t end.
Lemma teqb_true a b : text_eqb a b = true -> a = b.
Proof.
  unfold text_eqb. revert b. induction a as [|x a IH]; intros [|y b] H; try discriminate; [reflexivity|]. cbn in H.
  apply andb_true_iff in H. destruct H as [H1 H2]. apply Z.eqb_eq in H1. rewrite (IH _ H2). congruence.
Qed.
Lemma fine_run delta fs ops : Forall (fine_op delta) ops -> forall fs', fine delta fs fs' -> fine delta fs (fold_left file_do ops fs').
Proof.
  induction 1 as [|op ops H F IH]; intros fs' G; [exact G|]. cbn [fold_left]. apply IH. intros f. destruct op as [g|g t]; cbn [file_do]; rewrite set_get.
  - destruct (text_eqb f g); [right; left; reflexivity|apply G].
  - destruct (text_eqb f g) eqn:Q; [|apply G]. apply teqb_true in Q. subst g. destruct H as (k & p & pal & H1 & H2 & H3). right; right. exists k, p, pal, t. auto.
Qed.
Lemma job_fine delta l : Forall (fun j : text * res table => forall t, snd j = Ok t -> fine_op delta (Complete (fst j) t)) l -> Forall (fine_op delta) (job_ops l).
Proof.
  induction 1 as [|[f r] l H F IH]; [constructor|]. cbn [job_ops]. destruct r as [t|e]; [|constructor].
  constructor; [exact I|]. constructor; [exact (H t eq_refl)|exact IH].
Qed.
Lemma all_fine delta : Forall (fine_op delta) (table_ops delta).
Proof.
  apply job_fine. unfold jobs, PALETTES, make_edit_distance. cbv beta iota zeta delta [flat_map app fst snd].
  repeat apply Forall_cons; try apply Forall_nil; intros t E; cbv beta iota delta [fst snd] in E; cbv beta iota delta [fine_op fst snd].
  - exists HGR, IIGS, iigs_rgb. split; [reflexivity|]. split; [reflexivity|exact E].
  - exists DHGR, IIGS, iigs_rgb. split; [reflexivity|]. split; [reflexivity|exact E].
  - exists HGR, NTSC, ntsc_rgb. split; [reflexivity|]. split; [reflexivity|exact E].
  - exists DHGR, NTSC, ntsc_rgb. split; [reflexivity|]. split; [reflexivity|exact E].
Qed.
Lemma firstn_forall {A} (P : A -> Prop) n l : Forall P l -> Forall P (firstn n l).
Proof. intros H. revert n. induction H as [|x l H F IH]; intros [|n]; cbn; constructor; auto. Qed.
Lemma killed_fine delta n fs : fine delta fs (make_tables_killed delta n fs).
Proof. apply fine_run; [apply firstn_forall, all_fine|]. intros f. left. reflexivity. Qed.
Lemma killed_load delta n fs k p t : load_table (make_tables_killed delta n fs) k p = Ok t ->
  load_table fs k p = Ok t \/ exists pal t', colours_of p = Some pal /\ table_for delta k pal t' /\ t = edit_distances k t'.
Proof.
  unfold load_table. intros H. destruct (killed_fine delta n fs (loaded_name k p)) as [E|[E|(k' & p' & pal & t' & E1 & E2 & E3 & E4)]].
  - left. rewrite E in H. exact H.
  - rewrite E in H. discriminate H.
  - rewrite E4 in H. rewrite same_name in E1. destruct (names_differ k p k' p') as [-> ->]; [rewrite E1; apply teqb_refl|].
    right. exists pal, t'. injection H as <-. auto.
Qed.
Lemma no_unknown delta n fs k : fs (loaded_name k UNKNOWN) = None -> load_table (make_tables_killed delta n fs) k UNKNOWN = Raise KeyError.
Proof.
  intros H. unfold load_table. assert (E : forall ops, Forall (fine_op delta) ops -> (forall f, In (Begin f) ops -> exists k p pal, f = saved_name k p /\ colours_of p = Some pal) ->
    forall fs', fs' (loaded_name k UNKNOWN) = None -> fold_left file_do ops fs' (loaded_name k UNKNOWN) = None).
  { assert (X : forall k' p' pal, colours_of p' = Some pal -> text_eqb (loaded_name k UNKNOWN) (saved_name k' p') = false).
    { intros k' p' pal C. destruct (text_eqb _ _) eqn:Q; [|reflexivity]. rewrite same_name in Q. apply names_differ in Q. destruct Q as [_ <-]. discriminate C. }
    induction 1 as [|op ops F0 F IH]; intros B fs' N; [exact N|]. cbn [fold_left]. apply IH; [intros f I; apply B; right; exact I|].
    destruct op as [f|f t]; cbn [file_do]; rewrite set_get.
    - destruct (B f (or_introl eq_refl)) as (k' & p' & pal & -> & C). rewrite (X _ _ _ C). exact N.
    - destruct F0 as (k' & p' & pal & -> & C & _). rewrite (X _ _ _ C). exact N. }
  unfold make_tables_killed. rewrite E; [reflexivity|apply firstn_forall, all_fine| |exact H].
  intros f I. assert (J : In (Begin f) (table_ops delta)) by (rewrite <- (firstn_skipn n (table_ops delta)); apply in_or_app; left; exact I). clear I. revert J. unfold table_ops.
  assert (G : Forall (fun j : text * res table => exists k p pal, fst j = saved_name k p /\ colours_of p = Some pal) (jobs delta)).
  { unfold jobs, PALETTES, make_edit_distance. cbv beta iota zeta delta [flat_map app fst snd]. repeat apply Forall_cons; try apply Forall_nil; cbv beta iota delta [fst snd].
    - exists HGR, IIGS, iigs_rgb. split; reflexivity.
    - exists DHGR, IIGS, iigs_rgb. split; reflexivity.
    - exists HGR, NTSC, ntsc_rgb. split; reflexivity.
    - exists DHGR, NTSC, ntsc_rgb. split; reflexivity. }
  revert G. generalize (jobs delta). intros l G. induction G as [|[g r] l G F IH]; [intros []|]. cbn [job_ops]. destruct r as [t|e]; [|intros []].
  intros [J|[J|J]]; [injection J as ->; exact G|discriminate J|exact (IH J)].
Qed.

(** ** The limit *)
Lemma ceil_spec a d x : 0 < d -> (a + d - 1) / d <= x <-> a <= x * d.
Proof.
  intros D. pose proof (Z.div_mod (a + d - 1) d ltac:(lia)) as E. pose proof (Z.mod_pos_bound (a + d - 1) d D) as B.
  set (q := (a + d - 1) / d) in *. set (r := (a + d - 1) mod d) in *. clearbody q r. split; intros H; nia.
Qed.
Lemma limit_exact num den pos : 0 < den -> 0 <= pos ->
  negb (max_bytes num den =? 0) && (max_bytes num den <=? pos) = negb (num =? 0) && (1024 * 1024 * num <=? pos * den).
Proof.
  intros D P. unfold max_bytes. destruct (num =? 0) eqn:Z0; [reflexivity|]. apply Z.eqb_neq in Z0. destruct (num <? 0) eqn:N.
  - apply Z.ltb_lt in N. cbn [Z.eqb negb andb]. replace (-1 <=? pos) with true by (symmetry; apply Z.leb_le; lia). symmetry. apply Z.leb_le. nia.
  - apply Z.ltb_ge in N. assert (0 < (1024 * 1024 * num + den - 1) / den) as Q by (apply Z.div_str_pos; lia).
    replace ((1024 * 1024 * num + den - 1) / den =? 0) with false by (symmetry; apply Z.eqb_neq; lia). cbn [negb andb].
    pose proof (ceil_spec (1024 * 1024 * num) den pos D) as C. set (q := (1024 * 1024 * num + den - 1) / den) in *. clearbody q.
    destruct (q <=? pos) eqn:A, (1024 * 1024 * num <=? pos * den) eqn:B; try reflexivity; rewrite ?Z.leb_le, ?Z.leb_gt in *; lia.
Qed.
