(** Facts about complete conversions, for the property files. *)
From Verif Require Import Base BaseFacts ScreenModel ScreenSpec BitmapModel BitmapSpec VideoModel VideoSpec VideoProofs VideoFacts VideoThms
  VideoDisplay DisplaySpec VideoExample OpcodeModel MovieModel ClockModel MovieSpec MovieProofs MovieState MovieThms ClockProofs.
Opaque TABLES all_pairs next.

(** ** Reading the bytes back *)
Lemma hi_lo a : 256 * Z.shiftr a 8 + Z.land a 0xff = a.
Proof.
  rewrite Z.shiftr_div_pow2 by lia. change 0xff with (Z.ones 8). rewrite Z.land_ones by lia.
  change (2 ^ 8) with 256. rewrite <- Z_div_mod_eq_full. reflexivity.
Qed.
Lemma cmd_in t p : In t tick_values -> In p page_values -> In (TICK t p) op_cmds.
Proof.
  intros A B. unfold op_cmds. apply in_or_app. right. apply in_flat_map. exists t. split; [exact A|]. apply in_map, B.
Qed.
Lemma read_ops c which ops zs : recognises c which ->
  Forall (fun op => (is_tick op = true /\ fat op) \/ is_ack op = true) ops ->
  forall fuel, (length ops < fuel)%nat ->
  read_opcodes which fuel (compiled c ops ++ machine_emit (c_start c) Terminate ++ zs) = Some (ops, zs).
Proof.
  intros W. induction ops as [|op ops IH]; intros F fuel L; (destruct fuel as [|fuel]; [cbn [length] in L; lia|]).
  - cbn [compiled flat_map app machine_emit emit_command emit_data command read_opcodes].
    rewrite hi_lo, (W TERMINATE); [reflexivity|]. right. left. reflexivity.
  - inversion F as [|? ? Ho F']; subst. specialize (IH F' fuel ltac:(cbn [length] in L; lia)).
    change (compiled c (op :: ops)) with (machine_emit (c_start c) op ++ compiled c ops). rewrite <- app_assoc.
    set (tail := compiled c ops ++ machine_emit (c_start c) Terminate ++ zs) in *. clearbody tail.
    destruct op as [m| | |a|t p ct o]; destruct Ho as [[H1 H2]|H1]; try discriminate.
    + cbn [machine_emit emit_command emit_data command app read_opcodes].
      rewrite hi_lo, (W ACK) by (right; right; right; left; reflexivity).
      destruct a; cbn [Z.eqb orb]; rewrite IH; reflexivity.
    + destruct H2 as (T & P & Lo). destruct o as [|o1 [|o2 [|o3 [|o4 [|]]]]]; try discriminate.
      cbn [machine_emit emit_command emit_data command app read_opcodes].
      rewrite hi_lo, (W (TICK t p)) by (apply cmd_in; auto). rewrite IH. reflexivity.
Qed.
Lemma compiled_app c a b : compiled c (a ++ b) = compiled c a ++ compiled c b.
Proof. apply flat_map_app. Qed.
Lemma compiled_length c ops : (length ops <= length (compiled c ops))%nat.
Proof.
  induction ops as [|op ops IH]; [apply le_n|].
  change (compiled c (op :: ops)) with (machine_emit (c_start c) op ++ compiled c ops). rewrite app_length.
  assert (1 <= length (machine_emit (c_start c) op))%nat by (destruct op; cbn; lia). cbn [length]. lia.
Qed.

(** ** What a completed conversion consists of *)
Lemma finished_limit c s bytes : emit_step c s = Ok (Finished bytes) -> e_at (s_enc s) = AtStart ->
  c_max_bytes c <> 0 /\ c_max_bytes c <= m_pos (s_movie s).
Proof.
  unfold emit_step, encode_next. intros E A. rewrite A in E. cbn [rbind] in E.
  destruct (negb (c_max_bytes c =? 0) && (c_max_bytes c <=? m_pos (s_movie s))) eqn:L.
  - apply andb_true_iff in L. destruct L as [L1 L2]. apply negb_true_iff, Z.eqb_neq in L1. apply Z.leb_le in L2. auto.
  - exfalso. revert E. destruct (2044 <=? _); [|discriminate]. destruct (_ mod 2048 =? 0); discriminate.
Qed.

Lemma transcode_ops c audio frames bytes : transcode c audio frames = Ok bytes ->
  exists ops s, stream_run c (movie_new c audio frames) ops s /\ emit_step c s = Ok (Finished bytes) /\ Framed c ops s /\
    bytes = compiled c (ops ++ [Terminate]) ++ padding ops /\
    Z.of_nat (length bytes) = 2048 * (total_size ops / 2048 + 1) /\
    (0 <= c_max_bytes c -> exists rest, ops = Header (c_mode c) :: rest).
Proof.
  intros H. apply transcode_run in H. destruct H as (ops & s & R & E). pose proof (run_framed _ _ _ _ _ R) as F.
  exists ops, s. pose proof (finished_form _ _ _ _ F E) as B.
  repeat (split; [first [exact R|exact E|exact F|exact B|rewrite B; apply (finished_length _ _ _ F)]|]).
  intros M. destruct (fr_start _ _ _ F) as [[-> A]|[_ (rest & -> & _)]]; [|eauto].
  destruct (finished_limit _ _ _ E A) as [L1 L2]. rewrite (fr_pos _ _ _ F) in L2. cbn in L2. lia.
Qed.

Lemma tail_readable c ops s rest : Framed c ops s -> ops = Header (c_mode c) :: rest ->
  Forall (fun op => (is_tick op = true /\ fat op) \/ is_ack op = true) rest.
Proof.
  intros F ->. destruct (fr_start _ _ _ F) as [[X _]|[_ (r & X & A)]]; [discriminate|]. injection X as <-.
  pose proof (fr_fat _ _ _ F) as B. inversion B as [|? ? _ B']; subst.
  rewrite Forall_forall in *. intros op Ho. destruct (A op Ho) as [T|T]; [|auto].
  destruct (B' op Ho) as [Q|Q]; [auto|]. destruct op; discriminate.
Qed.

Lemma read_back c audio frames bytes which : transcode c audio frames = Ok bytes -> 0 <= c_max_bytes c -> recognises c which ->
  exists rest s zs, stream_run c (movie_new c audio frames) (Header (c_mode c) :: rest) s /\
    Forall (fun op => is_tick op = true \/ is_ack op = true) rest /\
    emit_step c s = Ok (Finished bytes) /\ read_stream which bytes = Some (c_mode c, rest, zs) /\ Forall (eq 0) zs.
Proof.
  intros H M W. apply transcode_ops in H. destruct H as (ops & s & R & E & F & B & _ & HD).
  destruct (HD M) as (rest & EO). exists rest, s, (padding ops). rewrite <- EO.
  pose proof (tail_readable _ _ _ _ F EO) as TR.
  split; [exact R|]. split. { eapply Forall_impl; [|exact TR]. intros op [[A _]|A]; auto. }
  split; [exact E|]. split; [|unfold padding; apply Forall_forall; intros x Hx; apply repeat_spec in Hx; auto].
  rewrite B, compiled_app, EO.
  set (zs := padding (Header (c_mode c) :: rest)).
  change (compiled c (Header (c_mode c) :: rest)) with (machine_emit (c_start c) (Header (c_mode c)) ++ compiled c rest).
  rewrite <- !app_assoc. cbn [machine_emit emit_command emit_data app read_stream].
  replace (compiled c [Terminate]) with (machine_emit (c_start c) Terminate) by (cbn [compiled flat_map]; rewrite app_nil_r; reflexivity).
  rewrite (read_ops c which rest zs W TR).
  - destruct (c_mode c); reflexivity.
  - rewrite !app_length. pose proof (compiled_length c rest). cbn [machine_emit emit_command emit_data app length]. lia.
Qed.

(** ** Every tick serves the bank and frame it should *)
Lemma step_shape c s new s' : emit_step c s = Ok (More new s') -> exists op, fat op /\ (new = [op] \/ exists a, new = [op; Ack a]).
Proof.
  unfold emit_step. destruct (encode_next c (s_movie s) (s_enc s)) as [[[oop m1] e1]|] eqn:N; [|discriminate]. cbn [rbind].
  destruct oop as [op|]; [|discriminate]. apply encode_next_shape in N. destruct N as (_ & _ & FO & _).
  destruct (negb (c_max_bytes c =? 0) && (c_max_bytes c <=? m_pos m1)); [discriminate|].
  destruct (2044 <=? _).
  - destruct (_ mod 2048 =? 0); [|discriminate]. cbn [assert_]. intros E. injection E as <- <-. exists op. split; [auto|right; eauto].
  - intros E. injection E as <- <-. exists op. auto.
Qed.
Lemma duties_ticks ops : length (duties ops) = length (filter is_tick ops).
Proof. induction ops as [|op ops IH]; [reflexivity|]. destruct op; cbn; auto. Qed.

Section Conversion.
  Variables (c : config) (audio : list Z) (frames : list frame).
  Hypothesis HC : good_config c.
  Hypothesis HA : good_audio audio.
  Hypothesis HF : good_frames (c_mode c) frames.

  (** number of ticks among the first k+1 opcodes *)
  Definition ticks_upto (ops : list opcode) (k : nat) : nat := length (filter is_tick (firstn (S k) ops)).

  Definition serves (ops : list opcode) (k : nat) (t p ct : Z) (o : list Z) : Prop :=
    exists f au, nth_error frames (Z.to_nat (shown_index c (ticks_upto ops k))) = Some f /\
      nth_error audio (ticks_upto ops k - 1) = Some au /\ t = 2 * au + 34 /\
      ct = mm_data (frame_bank f (d_bank (play (firstn k ops)))) (p - 32) (nth 0 o 0) /\
      0 <= ct < 256 /\ 32 <= p < 64 /\ length o = 4%nat /\
      Forall (fun x => 0 <= x < 256 /\ displayed (p - 32) x) o.

  Lemma ready_step d v t a g rnd p ct o v' g' : Ready (c_table c) (c_mode c) d v t a g ->
    next (c_table c) rnd v g = Ok ((p, ct, o), v', g') ->
    ct = bank_data t a (p - 32) (nth 0 o 0) /\ 32 <= p < 64 /\ length o = 4%nat /\
    Forall (fun x => 0 <= x < 256 /\ displayed (p - 32) x) o.
  Proof.
    intros (q & v0 & m0 & l & S & T & B & F & M) N.
    pose proof (fr_next _ _ _ _ _ _ _ _ _ _ _ F N) as F'.
    pose proof (proj1 (Forall_forall _ _) (all_well_formed (c_table c) (c_mode c) q v0 t a _ v' g' (proj1 HC) (shown_encoder _ _ _ _ _ S) T B F')
      (p, ct, o) ltac:(apply in_or_app; right; left; reflexivity)) as (W1 & W2 & W3 & W4).
    auto.
  Qed.

  Lemma all_serve ops s : stream_run c (movie_new c audio frames) ops s ->
    forall k t p ct o, nth_error ops k = Some (Tick t p ct o) -> serves ops k t p ct o.
  Proof.
    intros H. induction H as [|ops s new s' H IH E]; intros k t p ct o Hk; [destruct k; discriminate|].
    destruct (run_inv c audio frames HC HA HF _ _ H) as (n & I).
    destruct (Nat.lt_ge_cases k (length ops)) as [L|L].
    - rewrite nth_error_app1 in Hk by exact L. specialize (IH k t p ct o Hk). unfold serves, ticks_upto in *.
      rewrite !firstn_app. replace (k - length ops)%nat with 0%nat by lia. replace (S k - length ops)%nat with 0%nat by lia.
      cbn [firstn]. rewrite !app_nil_r. exact IH.
    - rewrite nth_error_app2 in Hk by exact L.
      destruct (step_shape _ _ _ _ E) as (op & FO & HN).
      assert (K : k = length ops /\ op = Tick t p ct o).
      { destruct (k - length ops)%nat as [|[|j]] eqn:Ej; destruct HN as [-> |(a & ->)]; cbn in Hk; try discriminate.
        - injection Hk as ->. split; [lia|auto].
        - injection Hk as ->. split; [lia|auto].
        - destruct j; discriminate. }
      destruct K as [-> ->].
      destruct (step_inv c audio frames HC HA HF ops s n I) as [(b & E' & _)|(new' & s'' & n' & E' & I' & _ & _ & HN' & HT)]; rewrite E in E'; [discriminate|].
      injection E' as <- <-.
      assert (Hin : In (Tick t p ct o) new) by (destruct HN as [-> |(a & ->)]; left; reflexivity).
      destruct (HT t p ct o Hin) as (au & f & v0 & g0 & g & T1 & T2 & T3 & T4 & T5 & T6).
      assert (TK : ticks_upto (ops ++ new) (length ops) = S n).
      { unfold ticks_upto. rewrite firstn_app. replace (S (length ops) - length ops)%nat with 1%nat by lia.
        rewrite firstn_all2 by lia. rewrite filter_app, app_length, <- duties_ticks, (i_duties _ _ _ _ _ _ I), map_length, firstn_length_le by apply (i_le _ _ _ _ _ _ I).
        destruct HN as [-> |(a & ->)]; cbn; lia. }
      destruct (ready_step _ _ _ _ _ _ _ _ _ _ _ T5 T6) as (R1 & R2 & R3 & R4).
      rewrite frame_bitmap_bank in R1 by (destruct T5 as (? & ? & ? & ? & _ & _ & GB & _); exact GB).
      exists f, au. rewrite TK. cbn [Nat.sub]. rewrite Nat.sub_0_r.
      assert (FN : firstn (length ops) (ops ++ new) = ops).
      { rewrite firstn_app, Nat.sub_diag, firstn_all. cbn [firstn]. apply app_nil_r. }
      rewrite FN. repeat split; auto; try apply T4; try apply R2.
  Qed.

  (** ** Where it stops *)
  Lemma stop_inv ops s bytes : stream_run c (movie_new c audio frames) ops s -> emit_step c s = Ok (Finished bytes) ->
    exists n, Inv c audio frames ops s n /\ stops c audio frames ops n.
  Proof.
    intros R E. destruct (run_inv c audio frames HC HA HF _ _ R) as (n & I). exists n. split; [exact I|].
    destruct (step_inv c audio frames HC HA HF ops s n I) as [(b & E' & S)|(new & s' & n' & E' & _)]; [exact S|rewrite E in E'; discriminate].
  Qed.

  Lemma clock_due n : due (c_clock c) n <= due (c_clock c) (S n).
  Proof. cbn [due]. destruct (c_clock c (Z.of_nat (S n)) (due (c_clock c) n)); lia. Qed.
End Conversion.

(** ** Limits *)
Definition with_limit (c : config) (limit : Z) : config :=
  {| c_mode := c_mode c; c_every_n := c_every_n c; c_max_bytes := limit; c_clock := c_clock c; c_table := c_table c;
     c_draws := c_draws c; c_start := c_start c |}.

Lemma step_unlimited c L s new s' : emit_step (with_limit c L) s = Ok (More new s') -> emit_step (with_limit c 0) s = Ok (More new s').
Proof.
  unfold emit_step. change (encode_next (with_limit c L)) with (encode_next (with_limit c 0)).
  destruct (encode_next (with_limit c 0) (s_movie s) (s_enc s)) as [[[oop m1] e1]|]; [|discriminate]. cbn [rbind].
  destruct oop as [op|]; [|discriminate].
  destruct (negb (c_max_bytes (with_limit c L) =? 0) && (c_max_bytes (with_limit c L) <=? m_pos m1)); [discriminate|].
  cbn [c_max_bytes with_limit Z.eqb negb andb]. exact (fun E => E).
Qed.
Lemma run_unlimited c L audio frames ops s : stream_run (with_limit c L) (movie_new (with_limit c L) audio frames) ops s ->
  stream_run (with_limit c 0) (movie_new (with_limit c 0) audio frames) ops s.
Proof. intros H. induction H; [apply run_new|]. eapply run_more; [exact IHstream_run|]. eapply step_unlimited; eauto. Qed.
Lemma finish_unlimited c L s b : emit_step (with_limit c L) s = Ok (Finished b) ->
  emit_step (with_limit c 0) s = Ok (Finished b) \/ (L <> 0 /\ L <= m_pos (s_movie s)).
Proof.
  unfold emit_step. change (encode_next (with_limit c L)) with (encode_next (with_limit c 0)).
  destruct (encode_next (with_limit c 0) (s_movie s) (s_enc s)) as [[[oop m1] e1]|] eqn:N; [|discriminate]. cbn [rbind].
  pose proof (encode_next_pos _ _ _ _ _ _ N) as P.
  destruct oop as [op|]; [|auto]. cbn [c_max_bytes with_limit]. rewrite P.
  destruct (L =? 0) eqn:L0; cbn [negb andb].
  - intros E. left. cbn [Z.eqb negb andb]. exact E.
  - destruct (L <=? m_pos (s_movie s)) eqn:L1.
    + intros _. right. apply Z.eqb_neq in L0. apply Z.leb_le in L1. auto.
    + destruct (2044 <=? _); [|discriminate]. destruct (_ mod 2048 =? 0); discriminate.
Qed.

(** runs from the same state are prefixes of each other *)
Lemma run_first c s new s1 : emit_step c s = Ok (More new s1) -> forall more s', stream_run c s more s' ->
  (more = [] /\ s' = s) \/ exists more', more = new ++ more' /\ stream_run c s1 more' s'.
Proof.
  intros E more s' H. induction H as [|m2 s2 n2 s3 H IH E2]; [left; auto|right].
  destruct IH as [[A B]|(mm & A & RR)].
  - rewrite B, E in E2. injection E2 as <- <-. exists []. rewrite A, app_nil_r. split; [reflexivity|constructor].
  - exists (mm ++ n2). rewrite A, app_assoc. split; [reflexivity|]. eapply run_more; eauto.
Qed.
Lemma run_prefix c s0 ops s : stream_run c s0 ops s -> forall ops' s' b, stream_run c s0 ops' s' -> emit_step c s' = Ok (Finished b) ->
  exists more, ops' = ops ++ more /\ stream_run c s more s'.
Proof.
  intros H. induction H as [|ops s new s1 H IH E]; intros ops' s' b R F.
  - exists ops'. auto.
  - destruct (IH ops' s' b R F) as (more & A & R').
    destruct (run_first _ _ _ _ E _ _ R') as [[B C]|(mm & B & RR)].
    + rewrite C, E in F. discriminate.
    + exists mm. rewrite A, B, app_assoc. auto.
Qed.

(** with a limit, every iteration begins before it *)
Lemma run_below c audio frames ops s : stream_run c (movie_new c audio frames) ops s -> 0 < c_max_bytes c ->
  ops = [] \/ exists before new s1, ops = before ++ new /\ stream_run c (movie_new c audio frames) before s1 /\
    (exists op, fat op /\ (new = [op] \/ exists a, new = [op; Ack a])) /\ total_size before < c_max_bytes c.
Proof.
  intros H M. destruct H as [|ops s new s' H E]; [auto|]. right. exists ops, new, s.
  split; [reflexivity|]. split; [exact H|]. split; [eapply step_shape; eauto|].
  pose proof (run_framed _ _ _ _ _ H) as F. rewrite <- (fr_pos _ _ _ F).
  unfold emit_step in E. destruct (encode_next c (s_movie s) (s_enc s)) as [[[oop m1] e1]|] eqn:N; [|discriminate]. cbn [rbind] in E.
  apply encode_next_pos in N. destruct oop as [op|]; [|discriminate].
  destruct (negb (c_max_bytes c =? 0) && (c_max_bytes c <=? m_pos m1)) eqn:L; [discriminate|].
  apply andb_false_iff in L. rewrite <- N. destruct L as [L|L]; [apply negb_false_iff, Z.eqb_eq in L; lia|apply Z.leb_gt in L; exact L].
Qed.
Lemma limit_total c audio frames ops s : stream_run c (movie_new c audio frames) ops s -> 0 < c_max_bytes c ->
  total_size ops < c_max_bytes c + 11.
Proof.
  intros H M. destruct (run_below _ _ _ _ _ H M) as [-> |(b & new & s1 & -> & _ & (op & FO & HN) & L)]; [cbn; lia|].
  rewrite total_app. destruct (fat_size op FO) as [SZ _].
  destruct HN as [-> |(a & ->)].
  - change (total_size [op]) with (opcode_size op + 0). lia.
  - change (total_size [op; Ack a]) with (opcode_size op + (4 + 0)). lia.
Qed.

(** ** From the bytes back to the run *)
Lemma read_run c audio frames bytes which k rest zs : transcode c audio frames = Ok bytes -> 0 <= c_max_bytes c -> recognises c which ->
  read_stream which bytes = Some (k, rest, zs) ->
  k = c_mode c /\ exists s, stream_run c (movie_new c audio frames) (Header (c_mode c) :: rest) s /\
    emit_step c s = Ok (Finished bytes) /\ Framed c (Header (c_mode c) :: rest) s /\
    bytes = compiled c (Header (c_mode c) :: rest ++ [Terminate]) ++ zs /\ Forall (eq 0) zs /\
    Z.of_nat (length bytes) = 2048 * (total_size (Header (c_mode c) :: rest) / 2048 + 1).
Proof.
  intros T M W R. destruct (read_back c audio frames bytes which T M W) as (rest' & s & zs' & A & A0 & B & C & D).
  rewrite R in C. injection C as -> -> ->. split; [reflexivity|]. exists s.
  pose proof (run_framed _ _ _ _ _ A) as F. pose proof (finished_form _ _ _ _ F B) as FF.
  split; [exact A|]. split; [exact B|]. split; [exact F|]. split; [|split; [exact D|]].
  - rewrite FF. replace (Header (c_mode c) :: rest' ++ [Terminate]) with ((Header (c_mode c) :: rest') ++ [Terminate]) by reflexivity.
    f_equal. rewrite FF in R.
    assert (R' : read_stream which (compiled c ((Header (c_mode c) :: rest') ++ [Terminate]) ++ padding (Header (c_mode c) :: rest')) =
      Some (c_mode c, rest', padding (Header (c_mode c) :: rest'))).
    { rewrite compiled_app. set (z := padding _).
      change (compiled c (Header (c_mode c) :: rest')) with (machine_emit (c_start c) (Header (c_mode c)) ++ compiled c rest').
      rewrite <- !app_assoc. cbn [machine_emit emit_command emit_data app read_stream].
      replace (compiled c [Terminate]) with (machine_emit (c_start c) Terminate) by (cbn [compiled flat_map]; rewrite app_nil_r; reflexivity).
      rewrite (read_ops c which rest' z W (tail_readable _ _ _ _ F eq_refl)).
      - destruct (c_mode c); reflexivity.
      - rewrite !app_length. pose proof (compiled_length c rest'). cbn [machine_emit emit_command emit_data app length]. lia. }
    rewrite R in R'. injection R' as ->. reflexivity.
  - rewrite FF. apply (finished_length _ _ _ F).
Qed.

(** ** A concrete conversion *)
Definition start_ex (cm : cmd) : Z :=
  match cm with HEADER => 1 | TERMINATE => 2 | NOP => 3 | ACK => 4 | TICK t p => 64 * t + p end.
Definition which_ex (a : Z) : option cmd :=
  if a =? 1 then Some HEADER else if a =? 2 then Some TERMINATE else if a =? 3 then Some NOP else if a =? 4 then Some ACK
  else Some (TICK (a / 64) (a mod 64)).
Lemma which_tick t p : 4 <= t -> 32 <= p < 64 -> which_ex (64 * t + p) = Some (TICK t p).
Proof.
  intros A B. unfold which_ex.
  destruct (Z.eqb_spec (64 * t + p) 1), (Z.eqb_spec (64 * t + p) 2), (Z.eqb_spec (64 * t + p) 3), (Z.eqb_spec (64 * t + p) 4); try lia.
  f_equal. f_equal; dlia.
Qed.
Lemma op_cmds_cases cm : In cm op_cmds -> cm = HEADER \/ cm = TERMINATE \/ cm = NOP \/ cm = ACK \/
  exists t p, cm = TICK t p /\ In t tick_values /\ In p page_values.
Proof.
  unfold op_cmds. intros H. apply in_app_or in H. destruct H as [[<-|[<-|[<-|[<-|[]]]]]|H]; auto 6.
  apply in_flat_map in H. destruct H as (t & A & B). apply in_map_iff in B. destruct B as (p & <- & C). right. right. right. right. eauto.
Qed.
Lemma tick_values_range t : In t tick_values -> 4 <= t <= 66.
Proof. unfold tick_values. intros H. apply in_map_iff in H. destruct H as (i & <- & H). apply in_zrange in H; lia. Qed.
Lemma page_values_range p : In p page_values -> 32 <= p < 64.
Proof. unfold page_values, zrange2. intros H. apply in_zrange_from in H. lia. Qed.
Lemma ex_recognises c : c_start c = start_ex -> recognises c which_ex.
Proof.
  intros E cm H. rewrite E. apply op_cmds_cases in H. destruct H as [-> |[-> |[-> |[-> |(t & p & -> & A & B)]]]]; try reflexivity.
  cbn [start_ex]. apply which_tick; [apply tick_values_range in A; lia|apply page_values_range in B; exact B].
Qed.
Definition config_ex (limit : Z) : config :=
  {| c_mode := HGR; c_every_n := 2; c_max_bytes := limit; c_clock := exact_clock 14700 30; c_table := ed_ex;
     c_draws := fun _ => zeros; c_start := start_ex |}.
Definition frames_ex : list frame := repeat (frame_ex, frame_ex) 3.
Definition audio_ex (n : nat) : list Z := repeat 5 n.
Lemma ex_config limit : good_config (config_ex limit).
Proof.
  split; [exact ex_u16|]. split; [cbn [c_every_n config_ex]; lia|]. intros t Ht. cbn [c_clock config_ex]. unfold exact_clock. apply Z.leb_le. lia.
Qed.
Lemma ex_audio n : good_audio (audio_ex n).
Proof. intros au H. apply repeat_spec in H. subst au. lia. Qed.
Lemma ex_frames limit : good_frames (c_mode (config_ex limit)) frames_ex.
Proof.
  intros f H. apply repeat_spec in H. subst f. intros a _. replace (frame_bank (frame_ex, frame_ex) a) with frame_ex by (destruct a; reflexivity).
  split; [reflexivity|]. split; [|discriminate].
  intros p o _ _. unfold is_byte. cbn [mm_data frame_ex].
  destruct (p =? 0); [destruct (o =? 0), (o =? 2), (o =? 4); lia|].
  destruct (p =? 1), ((o =? 10) || (o =? 20) || (o =? 30) || (o =? 40)); lia.
Qed.
Lemma ex_transcode limit n : exists bytes, transcode (config_ex limit) (audio_ex n) frames_ex = Ok bytes.
Proof. apply transcode_ok; [apply ex_config|apply ex_audio|apply ex_frames]. Qed.

(** a double-hires configuration: blank frames *)
Definition dconfig_ex (limit : Z) : config :=
  {| c_mode := DHGR; c_every_n := 1; c_max_bytes := limit; c_clock := float_clock 2157197833231401 42; c_table := fun _ _ => 0;
     c_draws := fun _ => zeros; c_start := start_ex |}.
Definition dframe_ex : frame := ({| mm_page := 1; mm_data := fun _ _ => 85 |}, {| mm_page := 1; mm_data := fun _ _ => 42 |}).
Lemma ex_dframes limit n : good_frames (c_mode (dconfig_ex limit)) (repeat dframe_ex n).
Proof.
  intros f H. apply repeat_spec in H. subst f. intros a _. split; [destruct a; reflexivity|]. split.
  - intros p o _ _; unfold is_byte; destruct a; cbn; lia.
  - intros _ p o _ _; destruct a; cbn; lia.
Qed.
Lemma ex_dconfig limit : good_config (dconfig_ex limit).
Proof.
  split; [intros o x y _ _ _; cbn; lia|]. split; [cbn [c_every_n dconfig_ex]; lia|].
  intros t Ht. cbn [c_clock dconfig_ex]. unfold float_clock. change (round53 (round53 0 * _)) with 0. apply Z.leb_le.
  apply Z.mul_nonneg_nonneg; [lia|apply Z.pow_nonneg; lia].
Qed.
Lemma ex_dtranscode limit n : exists bytes, transcode (dconfig_ex limit) (audio_ex n) (repeat dframe_ex 5) = Ok bytes.
Proof. apply transcode_ok; [apply ex_dconfig|apply ex_audio|apply ex_dframes]. Qed.
