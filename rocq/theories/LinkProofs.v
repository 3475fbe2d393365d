(** A conversion for another build of the player (C94): the same conversion with
    other opcode addresses. *)
From Verif Require Import Base BaseFacts ScreenModel ScreenSpec BitmapModel BitmapSpec VideoModel VideoSpec OpcodeModel MovieModel MovieSpec MovieProofs MovieThms MovieFinal IndepSpec IndepProofs.
Opaque TABLES all_pairs next.

(** the same settings, for another build of the player *)
Definition for_build (c : config) (start : cmd -> Z) : config :=
  {| c_mode := c_mode c; c_every_n := c_every_n c; c_max_bytes := c_max_bytes c; c_clock := c_clock c; c_table := c_table c; c_draws := c_draws c; c_start := start |}.
Lemma emit_length st st' op : length (machine_emit st' op) = length (machine_emit st op).
Proof. unfold machine_emit. rewrite !app_length. f_equal. destruct op; reflexivity. Qed.
Lemma next_build c st m e : encode_next (for_build c st) m e = encode_next c m e.
Proof. reflexivity. Qed.

Section S.
Variables (c : config) (st : cmd -> Z).
Let c' := for_build c st.
Definition linked (ops : list opcode) (s s' : stream) : Prop :=
  s_out s = flat_map (machine_emit (c_start c)) ops /\ s' = {| s_out := flat_map (machine_emit st) ops; s_movie := s_movie s; s_enc := s_enc s |}.
Definition linked_bytes (b b' : list Z) : Prop :=
  exists ops zs, b = flat_map (machine_emit (c_start c)) ops ++ zs /\ b' = flat_map (machine_emit st) ops ++ zs /\ Forall (eq 0) zs.
Lemma done_linked ops s s' : linked ops s s' -> linked_bytes (done c s) (done c' s').
Proof.
  intros [A ->]. unfold done, emit_bytes. cbn [s_out s_movie m_pos advance]. exists (ops ++ [Terminate]), (repeat 0 (Z.to_nat (2048 - (m_pos (s_movie s) + 2) mod 2048))).
  rewrite A, !flat_map_app. cbn [flat_map]. rewrite !app_nil_r. split; [reflexivity|]. split; [reflexivity|]. apply Forall_forall. intros x H. symmetry. exact (repeat_spec _ _ _ H).
Qed.
Lemma emit_linked ops s op : s_out s = flat_map (machine_emit (c_start c)) ops -> linked (ops ++ [op]) (emit_bytes c s op)
  (emit_bytes c' {| s_out := flat_map (machine_emit st) ops; s_movie := s_movie s; s_enc := s_enc s |} op).
Proof.
  intros A. unfold linked, emit_bytes. cbn [s_out s_movie s_enc c' for_build c_start]. rewrite A, !flat_map_app. cbn [flat_map]. rewrite !app_nil_r, (emit_length (c_start c) st). auto.
Qed.
Lemma step_linked ops s s' : linked ops s s' -> match emit_step c s, emit_step c' s' with
  | Ok (More new s1), Ok (More new' s1') => new' = new /\ linked (ops ++ new) s1 s1'
  | Ok (Finished b), Ok (Finished b') => linked_bytes b b'
  | Raise x, Raise y => y = x
  | _, _ => False end.
Proof.
  intros [A ->]. unfold emit_step. cbn [s_movie s_enc s_out]. change (encode_next c' (s_movie s) (s_enc s)) with (encode_next c (s_movie s) (s_enc s)).
  destruct (encode_next c (s_movie s) (s_enc s)) as [[[[op|] m1] e1]|]; cbn [rbind]; [|apply (done_linked ops); split; [exact A|reflexivity]|reflexivity].
  change (c_max_bytes c') with (c_max_bytes c). destruct (_ && _); [apply (done_linked ops); split; [exact A|reflexivity]|].
  destruct (emit_linked ops {| s_out := s_out s; s_movie := m1; s_enc := e1 |} op A) as [B E]. cbn [s_movie s_enc] in E. rewrite E. clear E. cbn [s_movie].
  set (s2 := emit_bytes c {| s_out := s_out s; s_movie := m1; s_enc := e1 |} op) in *. clearbody s2. cbn [s_movie s_enc s_out]. destruct (2044 <=? _).
  - change (flip_bank c' ?m) with (flip_bank c m). set (m3 := flip_bank c (s_movie s2)). clearbody m3.
    destruct (emit_linked (ops ++ [op]) {| s_out := s_out s2; s_movie := m3; s_enc := s_enc s2 |} (Ack (m_aux m3)) B) as [B2 E]. cbn [s_movie s_enc] in E. rewrite E.
    cbn [s_movie]. unfold assert_. destruct (_ =? 0); [|reflexivity]. split; [reflexivity|]. split; [rewrite B2, <- app_assoc; reflexivity|rewrite <- app_assoc; reflexivity].
  - split; [reflexivity|]. split; [exact B|reflexivity].
Qed.
Lemma stream_linked : forall fuel ops s s', linked ops s s' -> match emit_stream fuel c s, emit_stream fuel c' s' with
  | Ok b, Ok b' => linked_bytes b b' | Raise x, Raise y => y = x | _, _ => False end.
Proof.
  induction fuel as [|fuel IH]; intros ops s s' L; [reflexivity|]. cbn [emit_stream]. pose proof (step_linked ops s s' L) as H.
  destruct (emit_step c s) as [[new s1|b]|], (emit_step c' s') as [[new' s1'|b']|]; cbn [rbind]; try contradiction; try exact H. exact (IH _ _ _ (proj2 H)).
Qed.
Lemma transcode_linked audio frames : match transcode c audio frames, transcode c' audio frames with
  | Ok b, Ok b' => linked_bytes b b' | Raise x, Raise y => y = x | _, _ => False end.
Proof. unfold transcode. apply (stream_linked (length audio + 3) []). split; reflexivity. Qed.

Lemma build_ops audio frames ops ops' s s' b b' :
  stream_run c (movie_new c audio frames) ops s -> emit_step c s = Ok (Finished b) -> stream_run c' (movie_new c' audio frames) ops' s' -> emit_step c' s' = Ok (Finished b') ->
  ops' = ops.
Proof.
  intros R F R' F'. assert (G : Forall2 eq ops ops' /\ True).
  { refine (lock_all c c' (fun t t' => exists o, linked o t t') eq (fun _ _ => True) _ _ _ _ _ _ _ R F _ _ _ _ R' F').
    - intros t t' new t1 o' (o & L) E E'. pose proof (step_linked o t t' L) as H. rewrite E, E' in H. destruct o' as [new' t1'|]; [|contradiction]. destruct H as [-> H].
      exists new, t1'. split; [reflexivity|]. split; [clear; induction new; constructor; auto|eauto].
    - intros t t' x o' (o & L) E E'. pose proof (step_linked o t t' L) as H. rewrite E, E' in H. destruct o' as [|x']; [contradiction|]. eauto.
    - exists []. split; reflexivity. }
  destruct G as [G _]. clear - G. induction G; congruence.
Qed.
End S.
