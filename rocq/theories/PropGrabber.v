(** Properties C48-C51: the frame grabber. *)
From Verif Require Import Base ScreenModel BitmapModel SymbolModel GrabberModel GrabberSpec GrabberProofs.

(** [source] lists the outcomes of decoding, in order.  Any interleaving of the
    two threads is a [thread_run]. *)

(** C48 *)
(** What has been yielded is, frame by frame, a prefix of what is decoded, and at
    most ten frames wait; a finished iterator has yielded everything. *)
Theorem C48_in_order : forall source n s, thread_run n (threads_init source) s ->
  Forall2 frame_of (firstn (length (t_yielded s)) source) (t_yielded s) /\
  (length (t_queue s) <= 10)%nat /\
  (t_consumer s = Finished -> Forall2 frame_of source (t_yielded s)).
Proof.
  intros source n s R. pose proof (grab_run _ _ _ R) as I. split; [apply grab_prefix, I|]. split.
  - destruct I as (? & ? & ? & ? & ? & _ & _ & _ & _ & L). exact L.
  - intros F. exact (grab_finished _ _ I F).
Qed.
Print Assumptions C48_in_order.

(** If nothing fails, the threads cannot block each other: whenever neither can
    move the iterator has finished, and that happens within a bounded number of
    steps, whatever the schedule. *)
Theorem C48_finishes : forall source, (forall r, In r source -> exists d, r = Ok d /\ complete_frame d) ->
  forall n s, thread_run n (threads_init source) s ->
    (n <= 4 * length source + 4)%nat /\
    (stuck s -> t_consumer s = Finished /\ Forall2 frame_of source (t_yielded s)).
Proof.
  intros source G n s R. split.
  - apply weight_run in R. unfold weight in R. cbn in R. lia.
  - intros S. pose proof (grab_run _ _ _ R) as I.
    assert (X : exists good, source = map Ok good /\ forall d, In d good -> exists m, load_frame d = Ok m).
    { clear - G. induction source as [|r source IH]; [exists []; split; [reflexivity|intros d []]|].
      destruct IH as (good & -> & H); [intros r' Hr'; apply G; right; exact Hr'|].
      destruct (G r (or_introl eq_refl)) as (d & -> & M). exists (d :: good). split; [reflexivity|].
      intros d' [<-|Hd']; [exact (load_complete _ M)|auto]. }
    destruct X as (good & E & H). assert (E' : source = map Ok good ++ []) by (rewrite app_nil_r; exact E).
    pose proof (grab_not_failed good [] source s E' H (fun d x => x) I) as NF.
    destruct (stuck_cases _ _ I S) as [F|[(e & F)|(e & C & D & _)]].
    + split; [exact F|exact (grab_finished _ _ I F)].
    + exfalso. exact (NF e F).
    + exfalso. destruct I as (given & lost & inq & hand & tail & E2 & _ & W & _). rewrite D in W. destruct W as (_ & -> & _).
      assert (In (Raise e) source) by (rewrite E2; apply in_or_app; right; left; reflexivity).
      destruct (G _ H0) as (d & X & _). discriminate X.
Qed.
Print Assumptions C48_finishes.

(** Such frames exist in either mode. *)
Example C48_frames : complete_frame (repeat 0 8192, None) /\ complete_frame (repeat 42 8192, Some (repeat 85 8192)).
Proof. unfold complete_frame. cbn [fst snd]. rewrite !repeat_length. repeat split. Qed.

(** C49 *)
(** The property is false: if decoding fails at any point, then whatever the
    schedule the frames before it are yielded and after that the consumer waits
    for ever: the worker is dead, the queue is empty, no step is possible, and
    the iterator has neither finished nor raised. *)
Theorem C49_refuted : forall good e rest, (forall d, In d good -> complete_frame d) ->
  let source := map Ok good ++ Raise e :: rest in
  forall n s, thread_run n (threads_init source) s ->
    (n <= 4 * length source + 4)%nat /\ t_consumer s <> Finished /\
    (stuck s -> t_consumer s = Getting /\ t_worker s = Died e /\ t_queue s = [] /\
                Forall2 (fun d m => frame_of (Ok d) m) good (t_yielded s)).
Proof.
  intros good e rest G0 source n s R. pose proof (grab_run _ _ _ R) as I.
  assert (G : forall d, In d good -> exists m, load_frame d = Ok m) by (intros d Hd; exact (load_complete d (G0 d Hd))).
  assert (NF : t_consumer s <> Finished).
  { intros F. pose proof (grab_finished _ _ I F) as X.
    assert (Y : In (Raise e) source) by (apply in_or_app; right; left; reflexivity).
    clear - X Y. induction X as [|r m src ys H X IH]; [destruct Y|]. destruct Y as [-> |Y]; [|auto]. destruct H. }
  split; [apply weight_run in R; unfold weight in R; cbn in R; lia|]. split; [exact NF|]. intros S.
  destruct (stuck_cases _ _ I S) as [F|[(e' & F)|(e' & C & D & Q)]]; [contradiction| |].
  - exfalso. destruct I as (given & lost & inq & hand & tail & E & Y & W & C & L). rewrite F in C. destruct C as (d & -> & M).
    (* the frame that failed to load is a good one *)
    assert (X : In d good).
    { unfold source in E. clear - E W. set (l := given ++ [d] ++ inq ++ hand) in E. assert (IL : In d l) by (apply in_or_app; right; left; reflexivity).
      clearbody l. clear W. revert l IL E. induction good as [|g good IH]; intros [|x l] IL E; cbn in E; try destruct IL as [-> |IL]; try discriminate; try contradiction.
      - injection E as -> _. left. reflexivity.
      - injection E as -> E. right. exact (IH l IL E). }
    destruct (G d X) as (m & M'). congruence.
  - destruct (grab_died good e rest source s e' eq_refl I D Q C) as [-> Y]. split; [exact C|]. split; [exact D|]. split; [exact Q|].
    clear - Y. induction Y; constructor; auto. apply load_frame_of. assumption.
Qed.
Print Assumptions C49_refuted.
(** such runs exist: the very first frame fails *)
Example C49_witness : exists s, thread_run 1 (threads_init [Raise ValueError]) s /\ stuck s.
Proof.
  eexists. split; [eapply run_then; [apply run_here|apply w_raise]|]. intros s' H. inversion H.
Qed.

(** C50 *)
(** A frame is decoded correctly from any disk whose output files are complete or
    absent: a rerun after a crash between the writes of output files, or after a
    finished run, gives the same frame. *)
Theorem C50_whole_files_partial : forall j d, whole_outputs d j -> decode j d = Ok (j_result j).
Proof. exact decode_whole. Qed.
Print Assumptions C50_whole_files_partial.
Theorem C50_finished_run_partial : forall j d, whole_outputs d j ->
  let d' := disk_run d (decode_ops j d) in decode_ops j d' = [] /\ decode j d' = Ok (j_result j).
Proof.
  intros j d H d'. assert (C : cached j d' = true).
  { pose proof (decode_whole j d H) as D. unfold decode in D. fold d' in D. unfold read_back, cached in *.
    destruct (d' MainFile); [|discriminate]. destruct (j_aux j); [|reflexivity]. destruct (d' AuxFile); [reflexivity|discriminate]. }
  split; [unfold decode_ops; rewrite C; reflexivity|].
  pose proof (decode_whole j d H) as D. unfold decode. rewrite decode_stays by exact C. exact D.
Qed.
Print Assumptions C50_finished_run_partial.
(** The property is false: for every frame there is a crash point after which
    the truncated file counts as cached; then the frame differs, loading it
    fails, and every later run reads the same truncated files. *)
Theorem C50_refuted : forall j, concat (last_chunks j) <> [] -> length (concat (j_main j)) <> 0%nat ->
  exists n dec, let d := crashed j no_files n in
    decode j d = Ok dec /\ dec <> j_result j /\ ~ complete_frame dec /\ (exists e, load_frame dec = Raise e) /\
    disk_run d (decode_ops j d) = d.
Proof.
  intros j N M. destruct (before_last_prefix j) as (n & P). destruct (before_last_read j no_files) as (dec & C & R & X & Y).
  exists n, dec. intros d. assert (E : d = disk_run no_files (before_last j)).
  { unfold d, crashed, decode_ops. replace (cached j no_files) with false by (destruct j as [? ? [?|] ?]; reflexivity). rewrite P. reflexivity. }
  rewrite E. split; [unfold decode; rewrite decode_stays by exact C; exact R|]. split; [exact (X N)|]. split; [|split; [exact (Y M)|]].
  { intros W. destruct (load_complete _ W) as (m & LM). destruct (Y M) as (e & LE). congruence. }
  apply decode_stays. exact C.
Qed.
Print Assumptions C50_refuted.
Example C50_jobs : exists j j', (concat (last_chunks j) <> [] /\ length (concat (j_main j)) <> 0%nat /\ whole_outputs no_files j) /\
  (j_aux j' <> None /\ concat (last_chunks j') <> [] /\ length (concat (j_main j')) <> 0%nat).
Proof.
  exists {| j_bmp := [[66; 77]]; j_main := [[1; 2]; [3]]; j_aux := None; j_aux_first := false |},
    {| j_bmp := []; j_main := [[1]]; j_aux := Some [[2]]; j_aux_first := true |}.
  cbn. split; [split; [discriminate|split; [discriminate|split; [left; reflexivity|exact I]]]|split; [discriminate|split; discriminate]].
Qed.

(** C51 *)
(** Names with an extension: only the extension is replaced.  46 is ".". *)
Theorem C51_only_the_extension : forall stem ext m p, dotless ext ->
  output_dir (stem ++ 46 :: ext) m p = stem ++ str "/" ++ mode_name m ++ str "/" ++ palette_name p /\
  out_filename (stem ++ 46 :: ext) = stem ++ 46 :: str "a2m".
Proof. intros stem ext m p D. split; [apply output_dir_stem, D|apply out_filename_stem, D]. Qed.
Print Assumptions C51_only_the_extension.
(** Different modes, palettes or stems have different directories. *)
Theorem C51_distinct_directories_partial : forall stem ext m p stem' ext' m' p', dotless ext -> dotless ext' ->
  output_dir (stem ++ 46 :: ext) m p = output_dir (stem' ++ 46 :: ext') m' p' -> stem = stem' /\ m = m' /\ p = p'.
Proof.
  intros stem ext m p stem' ext' m' p' D D' E. rewrite !output_dir_stem in E by assumption. exact (dir_parts _ _ _ _ _ _ E).
Qed.
Print Assumptions C51_distinct_directories_partial.
(** The output overwrites the input only for names that end in .a2m (and the
    file a2m). *)
Theorem C51_input_kept_partial : forall s, out_filename s = s -> s = str "a2m" \/ exists stem, s = stem ++ 46 :: str "a2m".
Proof.
  intros s E. destruct (last_dot s) as [D|(stem & ext & -> & D)].
  - left. rewrite out_filename_dotless in E by exact D. symmetry. exact E.
  - right. exists stem. rewrite out_filename_stem in E by exact D. symmetry. exact E.
Qed.
Print Assumptions C51_input_kept_partial.
(** The property is false: files that differ in the extension share their cache;
    all names without a dot share one; x.a2m is overwritten; a dot in a directory
    name is taken for an extension. *)
Theorem C51_refuted :
  (forall stem ext ext' m p, dotless ext -> dotless ext' ->
     output_dir (stem ++ 46 :: ext) m p = output_dir (stem ++ 46 :: ext') m p) /\
  (forall a b m p, dotless a -> dotless b -> output_dir a m p = output_dir b m p /\ out_filename a = out_filename b) /\
  (forall stem, out_filename (stem ++ 46 :: str "a2m") = stem ++ 46 :: str "a2m") /\
  out_filename (str "./movies/one") = str ".a2m".
Proof.
  split; [|split; [|split]].
  - intros stem ext ext' m p D D'. rewrite !output_dir_stem by assumption. reflexivity.
  - intros a b m p A B. split; [|rewrite !out_filename_dotless by assumption; reflexivity].
    unfold output_dir. rewrite !SymbolProofs.split_on_single by assumption. reflexivity.
  - intros stem. apply out_filename_stem. intros H. cbn in H. repeat destruct H as [H|H]; try discriminate; destruct H.
  - reflexivity.
Qed.
Print Assumptions C51_refuted.
Example C51_names : dotless (str "mp4") /\ dotless (str "avi") /\ str "mp4" <> str "avi" /\
  out_filename (str "a.b/movie.mp4") = str "a.b/movie.a2m" /\
  output_dir (str "a.b/movie.mp4") DHGR NTSC = str "a.b/movie/DHGR/NTSC".
Proof.
  split; [|split; [|split; [discriminate|split; reflexivity]]]; intros H; cbn in H; repeat destruct H as [H|H]; try discriminate; destruct H.
Qed.
