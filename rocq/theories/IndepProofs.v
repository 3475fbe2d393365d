(** Comparing two conversions step by step. *)
From Verif Require Import Base BaseFacts ScreenModel ScreenSpec BitmapModel BitmapSpec VideoModel VideoSpec OpcodeModel MovieModel MovieSpec MovieProofs MovieThms MovieFinal IndepSpec.
Opaque TABLES all_pairs next.

Lemma run_head c s more t b : stream_run c s more t -> emit_step c t = Ok (Finished b) ->
  (more = [] /\ t = s) \/ exists new s1 more', emit_step c s = Ok (More new s1) /\ more = new ++ more' /\ stream_run c s1 more' t.
Proof.
  intros H. revert b. assert (G : (more = [] /\ t = s) \/ exists new s1 more', emit_step c s = Ok (More new s1) /\ more = new ++ more' /\ stream_run c s1 more' t).
  { induction H as [|m2 s2 n2 s3 H IH E]; [left; auto|right]. destruct IH as [[-> ->]|(new & s1 & mm & A & B & C)].
    - exists n2, s3, []. rewrite app_nil_r. split; [exact E|]. split; [reflexivity|constructor].
    - exists new, s1, (mm ++ n2). rewrite B, app_assoc. split; [exact A|]. split; [reflexivity|]. eapply run_more; eauto. }
  intros _ _. exact G.
Qed.
Section Lock.
  Variables (c c' : config) (R : stream -> stream -> Prop) (P : opcode -> opcode -> Prop) (Q : list Z -> list Z -> Prop).
  Hypothesis step : forall s s' ops s1 o', R s s' -> emit_step c s = Ok (More ops s1) -> emit_step c' s' = Ok o' ->
    exists ops' s1', o' = More ops' s1' /\ Forall2 P ops ops' /\ R s1 s1'.
  Lemma lock s0 s0' ops s : stream_run c s0 ops s -> R s0 s0' -> forall ops' t b, stream_run c' s0' ops' t -> emit_step c' t = Ok (Finished b) ->
    exists ops1 s1 more, ops' = ops1 ++ more /\ stream_run c' s1 more t /\ Forall2 P ops ops1 /\ R s s1.
  Proof.
    intros H R0 ops' t b H' F. induction H as [|ops s new s1 H IH E]; [exists [], s0', ops'; auto|].
    destruct IH as (ops1 & s' & more & A & B & C & D). destruct (run_head _ _ _ _ _ B F) as [[-> ->]|(new' & s1' & more' & E' & -> & B')].
    - destruct (step _ _ _ _ _ D E F) as (? & ? & X & _). discriminate.
    - destruct (step _ _ _ _ _ D E E') as (? & ? & X & Y & Z). injection X as <- <-. exists (ops1 ++ new'), s1', more'. rewrite A, app_assoc.
      split; [reflexivity|]. split; [exact B'|]. split; [apply Forall2_app; assumption|exact Z].
  Qed.
  Hypothesis fin : forall s s' b o', R s s' -> emit_step c s = Ok (Finished b) -> emit_step c' s' = Ok o' -> exists b', o' = Finished b' /\ Q b b'.
  Lemma lock_all s0 s0' ops s b : stream_run c s0 ops s -> emit_step c s = Ok (Finished b) -> R s0 s0' -> forall ops' t b', stream_run c' s0' ops' t -> emit_step c' t = Ok (Finished b') ->
    Forall2 P ops ops' /\ Q b b'.
  Proof.
    intros H F R0 ops' t b' H' F'. destruct (lock _ _ _ _ H R0 _ _ _ H' F') as (ops1 & s1 & more & A & B & C & D).
    destruct (run_head _ _ _ _ _ B F') as [[-> ->]|(new' & s1' & more' & E' & _)].
    - rewrite app_nil_r in A. subst ops1. split; [exact C|]. destruct (fin _ _ _ _ D F F') as (b2 & X & Y). injection X as <-. exact Y.
    - destruct (fin _ _ _ _ D F E') as (? & X & _). discriminate.
  Qed.
End Lock.

(** ** Sound does not depend on the pictures *)
Record sounds (s s' : stream) : Prop := {
  so_out : length (s_out s) = length (s_out s');
  so_pos : m_pos (s_movie s) = m_pos (s_movie s');
  so_ticks : m_ticks (s_movie s) = m_ticks (s_movie s');
  so_number : m_frame_number (s_movie s) = m_frame_number (s_movie s');
  so_at : e_at (s_enc s) = e_at (s_enc s');
  so_audio : e_audio (s_enc s) = e_audio (s_enc s');
  so_frames : length (e_frames (s_enc s)) = length (e_frames (s_enc s')) }.
(** what one drawing of an opcode does, apart from pictures *)
Definition draws_like (c : config) (m : movie) (e : enc) (oop : option opcode) (m1 : movie) (e1 : enc) : Prop :=
  m_pos m1 = m_pos m /\
  match e_at e with
  | AtStart => oop = Some (Header (c_mode c)) /\ m_ticks m1 = m_ticks m /\ m_frame_number m1 = m_frame_number m /\ e_at e1 = AfterHeader /\ e_audio e1 = e_audio e /\ e_frames e1 = e_frames e
  | AtEnd => oop = None /\ m_ticks m1 = m_ticks m /\ m_frame_number m1 = m_frame_number m /\ e_at e1 = AtEnd /\ e_audio e1 = e_audio e /\ e_frames e1 = e_frames e
  | _ => match e_audio e with
         | [] => oop = None /\ m_ticks m1 = m_ticks m /\ m_frame_number m1 = m_frame_number m /\ e_at e1 = AtEnd /\ e_audio e1 = [] /\ e_frames e1 = e_frames e
         | au :: audio => m_ticks m1 = m_ticks m + 1 /\ e_audio e1 = audio /\
             let due := c_clock c (m_ticks m + 1) (m_frame_number m) in
             m_frame_number m1 = (if due then m_frame_number m + 1 else m_frame_number m) /\
             if due && (match e_frames e with [] => true | _ => false end) then oop = None /\ e_at e1 = AtEnd /\ e_frames e1 = e_frames e
             else (exists p ct os, oop = Some (Tick (au * 2 + 34) p ct os) /\ length os = 4%nat) /\ e_at e1 = InLoop /\ e_frames e1 = (if due then tl (e_frames e) else e_frames e)
         end
  end.
Lemma follow_keeps m e e' : follow_bank m e = Ok e' -> e_audio e' = e_audio e /\ e_frames e' = e_frames e /\ e_at e' = e_at e.
Proof. unfold follow_bank. destruct (Bool.eqb _ _); [intros E; injection E as <-; auto|]. destruct (e_target e); [|discriminate]. intros E; injection E as <-. auto. Qed.
Lemma tick_opcode_len t p ct os op : tick_opcode t p ct os = Ok op -> op = Tick t p ct os /\ length os = 4%nat.
Proof.
  unfold tick_opcode. destruct (_ && _); [|discriminate]. destruct (Z.eqb_spec (Z.of_nat (length os)) 4); [|discriminate]. intros E. injection E as <-. split; [reflexivity|lia].
Qed.
Lemma rest_of_tick c m au m2 e2 oop m1 e1 :
  (let! e3 := follow_bank m2 e2 in
   match e_op_seq e3 with
   | None => Raise TypeError
   | Some g =>
       let! (change, v', g') := next (c_table c) (c_draws c (m_ticks m + 1)) (m_video m2) g in
       let '(page, content, offsets) := change in
       let! op := tick_opcode (au * 2 + 34) page content offsets in
       Ok (Some op,
           {| m_pos := m_pos m2; m_ticks := m_ticks m2; m_aux := m_aux m2; m_frame_number := m_frame_number m2; m_video := v' |},
           {| e_at := InLoop; e_last := e_last e3; e_target := e_target e3; e_op_seq := Some g'; e_audio := e_audio e3; e_frames := e_frames e3 |})
   end) = Ok (oop, m1, e1) ->
  (exists p ct os, oop = Some (Tick (au * 2 + 34) p ct os) /\ length os = 4%nat) /\ m_pos m1 = m_pos m2 /\ m_ticks m1 = m_ticks m2 /\ m_frame_number m1 = m_frame_number m2 /\
  e_at e1 = InLoop /\ e_audio e1 = e_audio e2 /\ e_frames e1 = e_frames e2.
Proof.
  destruct (follow_bank m2 e2) as [e3|] eqn:F; [|discriminate]. cbn [rbind]. destruct (follow_keeps _ _ _ F) as (A & B & _).
  destruct (e_op_seq e3) as [g|]; [|discriminate]. destruct (next _ _ _ g) as [[[[[page content] offsets] v'] g']|]; [|discriminate]. cbn [rbind].
  destruct (tick_opcode _ _ _ _) as [op|] eqn:T; [|discriminate]. cbn [rbind]. destruct (tick_opcode_len _ _ _ _ _ T) as [-> L]. intros E. injection E as <- <- <-.
  cbn [m_pos m_ticks m_frame_number e_at e_audio e_frames]. rewrite A, B. split; [exists page, content, offsets; auto|]. auto 10.
Qed.
Lemma draws c m e oop m1 e1 : encode_next c m e = Ok (oop, m1, e1) -> draws_like c m e oop m1 e1.
Proof.
  unfold encode_next, draws_like. 
  assert (TB : forall last au audio, tick_body c m {| e_at := InLoop; e_last := last; e_target := e_target e; e_op_seq := e_op_seq e; e_audio := audio; e_frames := e_frames e |} au = Ok (oop, m1, e1) ->
    m_pos m1 = m_pos m /\ m_ticks m1 = m_ticks m + 1 /\ e_audio e1 = audio /\
    let due := c_clock c (m_ticks m + 1) (m_frame_number m) in
    m_frame_number m1 = (if due then m_frame_number m + 1 else m_frame_number m) /\
    if due && (match e_frames e with [] => true | _ => false end) then oop = None /\ e_at e1 = AtEnd /\ e_frames e1 = e_frames e
    else (exists p ct os, oop = Some (Tick (au * 2 + 34) p ct os) /\ length os = 4%nat) /\ e_at e1 = InLoop /\ e_frames e1 = (if due then tl (e_frames e) else e_frames e)).
  { intros last au audio. unfold tick_body. cbv zeta. destruct (c_clock c (m_ticks m + 1) (m_frame_number m)) eqn:DU; cbn [andb].
    - unfold new_frame. cbn [e_frames]. destruct (e_frames e) as [|f frames].
      + cbn [rbind]. intros E. injection E as <- <- <-. cbn. auto 10.
      + destruct (c_every_n c =? 0); [discriminate|]. destruct (_ mod _ =? 0); cbn [rbind]; intros E; destruct (rest_of_tick c m au _ _ _ _ _ E) as (A & B & C & D & F & G & H);
          cbn [m_pos m_ticks m_frame_number e_audio e_frames tl] in *; auto 10.
    - cbn [rbind]. intros E. destruct (rest_of_tick c m au _ _ _ _ _ E) as (A & B & C & D & F & G & H). cbn [m_pos m_ticks m_frame_number e_audio e_frames tl] in *. auto 10. }
  destruct (e_at e) eqn:AT.
  - intros E. injection E as <- <- <-. cbn. repeat (split; [reflexivity|]); reflexivity.
  - destruct (e_audio e) as [|au audio]; [intros E; injection E as <- <- <-; cbn; repeat (split; [reflexivity|]); reflexivity|]. intros E. destruct (TB _ _ _ E) as (A & B & C & D). exact (conj A (conj B (conj C D))).
  - destruct (e_audio e) as [|au audio]; [intros E; injection E as <- <- <-; cbn; repeat (split; [reflexivity|]); reflexivity|]. intros E. destruct (TB _ _ _ E) as (A & B & C & D). exact (conj A (conj B (conj C D))).
  - intros E. injection E as <- <- <-. repeat (split; [reflexivity || exact AT|]); reflexivity.
Qed.

Definition wide (op : opcode) : Prop := match op with Header _ => True | Tick _ _ _ os => length os = 4%nat | _ => False end.
Lemma same_draws c c' m m' e e' oop oop' m1 m1' e1 e1' : c_clock c' = c_clock c ->
  m_pos m = m_pos m' -> m_ticks m = m_ticks m' -> m_frame_number m = m_frame_number m' -> e_at e = e_at e' -> e_audio e = e_audio e' -> length (e_frames e) = length (e_frames e') ->
  draws_like c m e oop m1 e1 -> draws_like c' m' e' oop' m1' e1' ->
  m_pos m1 = m_pos m1' /\ m_ticks m1 = m_ticks m1' /\ m_frame_number m1 = m_frame_number m1' /\ e_at e1 = e_at e1' /\ e_audio e1 = e_audio e1' /\ length (e_frames e1) = length (e_frames e1') /\
  match oop, oop' with None, None => True | Some op, Some op' => same_sound op op' /\ wide op /\ wide op' | _, _ => False end.
Proof.
  intros CL E1 E2 E3 E4 E5 E6. unfold draws_like. rewrite CL, <- E2, <- E3, <- E4, <- E5. intros [A B] [A' B'].
  split; [congruence|]. clear A A' E1.
  assert (Z0 : forall x y : option opcode, x = None -> y = None -> match x, y with None, None => True | Some op, Some op' => same_sound op op' /\ wide op /\ wide op' | _, _ => False end)
    by (intros x y -> ->; exact Logic.I).
  assert (TK : forall au audio, (m_ticks m1 = m_ticks m + 1 /\ e_audio e1 = audio /\
             let due := c_clock c (m_ticks m + 1) (m_frame_number m) in
             m_frame_number m1 = (if due then m_frame_number m + 1 else m_frame_number m) /\
             if due && (match e_frames e with [] => true | _ => false end) then oop = None /\ e_at e1 = AtEnd /\ e_frames e1 = e_frames e
             else (exists p ct os, oop = Some (Tick (au * 2 + 34) p ct os) /\ length os = 4%nat) /\ e_at e1 = InLoop /\ e_frames e1 = (if due then tl (e_frames e) else e_frames e)) ->
     (m_ticks m1' = m_ticks m + 1 /\ e_audio e1' = audio /\
             let due := c_clock c (m_ticks m + 1) (m_frame_number m) in
             m_frame_number m1' = (if due then m_frame_number m + 1 else m_frame_number m) /\
             if due && (match e_frames e' with [] => true | _ => false end) then oop' = None /\ e_at e1' = AtEnd /\ e_frames e1' = e_frames e'
             else (exists p ct os, oop' = Some (Tick (au * 2 + 34) p ct os) /\ length os = 4%nat) /\ e_at e1' = InLoop /\ e_frames e1' = (if due then tl (e_frames e') else e_frames e')) ->
     m_ticks m1 = m_ticks m1' /\ m_frame_number m1 = m_frame_number m1' /\ e_at e1 = e_at e1' /\ e_audio e1 = e_audio e1' /\ length (e_frames e1) = length (e_frames e1') /\
     match oop, oop' with None, None => True | Some op, Some op' => same_sound op op' /\ wide op /\ wide op' | _, _ => False end).
  { clear B B'. intros au audio. cbv zeta. set (due := c_clock c _ _). clearbody due. intros (A1 & A2 & A3 & A4) (B1 & B2 & B3 & B4).
    split; [congruence|]. split; [congruence|].
    assert (SH : (match e_frames e' with [] => true | _ => false end) = (match e_frames e with [] => true | _ => false end)) by (destruct (e_frames e), (e_frames e'); try reflexivity; discriminate E6).
    rewrite SH in B4. destruct (due && _).
    - destruct A4 as (F1 & F2 & F3), B4 as (G1 & G2 & G3). split; [congruence|]. split; [congruence|]. split; [congruence|]. apply Z0; assumption.
    - destruct A4 as ((p & ct & os & F1 & L) & F2 & F3), B4 as ((p' & ct' & os' & G1 & L') & G2 & G3). split; [congruence|]. split; [congruence|]. split.
      { rewrite F3, G3. destruct due; [|exact E6]. destruct (e_frames e), (e_frames e'); try discriminate E6; [reflexivity|]. cbn [tl]. injection E6 as E6. exact E6. }
      rewrite F1, G1. split; [reflexivity|]. split; assumption. }
  destruct (e_at e).
  - destruct B as (F1 & F2 & F3 & F4 & F5 & F6), B' as (G1 & G2 & G3 & G4 & G5 & G6). split; [congruence|]. split; [congruence|]. split; [congruence|]. split; [congruence|]. split; [congruence|].
    rewrite F1, G1. split; [exact Logic.I|split; exact Logic.I].
  - destruct (e_audio e) as [|au audio]; [|exact (TK au audio B B')].
    destruct B as (F1 & F2 & F3 & F4 & F5 & F6), B' as (G1 & G2 & G3 & G4 & G5 & G6). split; [congruence|]. split; [congruence|]. split; [congruence|]. split; [congruence|]. split; [congruence|]. apply Z0; assumption.
  - destruct (e_audio e) as [|au audio]; [|exact (TK au audio B B')].
    destruct B as (F1 & F2 & F3 & F4 & F5 & F6), B' as (G1 & G2 & G3 & G4 & G5 & G6). split; [congruence|]. split; [congruence|]. split; [congruence|]. split; [congruence|]. split; [congruence|]. apply Z0; assumption.
  - destruct B as (F1 & F2 & F3 & F4 & F5 & F6), B' as (G1 & G2 & G3 & G4 & G5 & G6). split; [congruence|]. split; [congruence|]. split; [congruence|]. split; [congruence|]. split; [congruence|]. apply Z0; assumption.
Qed.
Lemma wide_len st op : wide op -> length (machine_emit st op) = 7%nat.
Proof. destruct op; cbn; try tauto. intros ->. reflexivity. Qed.
Lemma flip_same c m : m_pos (flip_bank c m) = m_pos m /\ m_ticks (flip_bank c m) = m_ticks m /\ m_frame_number (flip_bank c m) = m_frame_number m.
Proof. unfold flip_bank. destruct (c_mode c); auto. Qed.
Lemma done_len c s : length (done c s) = (length (s_out s) + 2 + Z.to_nat (2048 - (m_pos (s_movie s) + 2) mod 2048))%nat.
Proof. unfold done, emit_bytes, advance. cbn [s_out s_movie m_pos]. rewrite !app_length, repeat_length. cbn [machine_emit emit_command emit_data app length]. reflexivity. Qed.
Lemma assert_some {A} b (r : res A) x : assert_ b r = Ok x -> b = true /\ r = Ok x.
Proof. destruct b; [auto|discriminate]. Qed.
Lemma emit_sounds c c' s s' o o' : c_clock c' = c_clock c -> c_max_bytes c' = c_max_bytes c -> sounds s s' -> emit_step c s = Ok o -> emit_step c' s' = Ok o' ->
  match o, o' with
  | More ops s1, More ops' s1' => Forall2 same_sound ops ops' /\ sounds s1 s1'
  | Finished b, Finished b' => length b = length b'
  | _, _ => False
  end.
Proof.
  intros CL MB SS. unfold emit_step. destruct (encode_next c (s_movie s) (s_enc s)) as [[[oop m1] e1]|] eqn:N; [|discriminate]. destruct (encode_next c' (s_movie s') (s_enc s')) as [[[oop' m1'] e1']|] eqn:N'; [|discriminate].
  cbn [rbind]. apply draws in N. apply draws in N'.
  destruct (same_draws c c' _ _ _ _ _ _ _ _ _ _ CL (so_pos _ _ SS) (so_ticks _ _ SS) (so_number _ _ SS) (so_at _ _ SS) (so_audio _ _ SS) (so_frames _ _ SS) N N') as (A & B & C & D & E & F & G).
  clear N N'. pose proof (so_out _ _ SS) as L. rewrite MB, <- A. destruct oop as [op|], oop' as [op'|]; try contradiction.
  - destruct G as (G1 & G2 & G3). destruct (negb _ && _).
    + intros X X'. injection X as <-. injection X' as <-. rewrite !done_len. cbn [s_out s_movie]. rewrite L, A. reflexivity.
    + unfold emit_bytes. cbn [s_movie s_out s_enc m_pos advance]. rewrite (wide_len _ _ G2), (wide_len _ _ G3). rewrite <- A. destruct (2044 <=? _) eqn:T.
      * destruct (flip_same c (advance m1 (Z.of_nat 7))) as (P1 & P2 & P3). destruct (flip_same c' (advance m1' (Z.of_nat 7))) as (Q1 & Q2 & Q3).
        cbn [advance m_pos m_ticks m_frame_number] in P1, P2, P3, Q1, Q2, Q3.
        intros X X'. destruct (assert_some _ _ _ X) as [_ Y]. destruct (assert_some _ _ _ X') as [_ Y']. injection Y as <-. injection Y' as <-. clear X X'.
        split; [constructor; [exact G1|constructor; [exact Logic.I|constructor]]|].
        constructor; cbn [s_out s_movie s_enc m_pos m_ticks m_frame_number advance]; try assumption; try congruence.
        { rewrite !app_length, (wide_len _ _ G2), (wide_len _ _ G3), L. reflexivity. }
        { change 7 with (Z.of_nat 7). rewrite P1, Q1, A. reflexivity. }
        { change 7 with (Z.of_nat 7). congruence. }
        { change 7 with (Z.of_nat 7). congruence. }
      * intros X X'. injection X as <-. injection X' as <-. split; [constructor; [exact G1|constructor]|].
        constructor; cbn [s_out s_movie s_enc m_pos m_ticks m_frame_number advance]; try assumption; try congruence.
        rewrite !app_length, (wide_len _ _ G2), (wide_len _ _ G3), L. reflexivity.
  - intros X X'. injection X as <-. injection X' as <-. rewrite !done_len. cbn [s_out s_movie]. rewrite L, A. reflexivity.
Qed.
Lemma sounds_new c c' audio frames frames' : length frames = length frames' -> sounds (movie_new c audio frames) (movie_new c' audio frames').
Proof. intros L. constructor; cbn; auto. Qed.
Lemma sound_independent c c' audio frames frames' ops ops' s s' b b' : c_clock c' = c_clock c -> c_max_bytes c' = c_max_bytes c -> length frames = length frames' ->
  stream_run c (movie_new c audio frames) ops s -> emit_step c s = Ok (Finished b) -> stream_run c' (movie_new c' audio frames') ops' s' -> emit_step c' s' = Ok (Finished b') ->
  Forall2 same_sound ops ops' /\ length b = length b'.
Proof.
  intros CL MB L R F R' F'. refine (lock_all c c' sounds same_sound (fun x y => length x = length y) _ _ _ _ _ _ _ R F (sounds_new c c' audio frames frames' L) _ _ _ R' F').
  - intros t t' new t1 o' SS E E'. pose proof (emit_sounds c c' t t' _ _ CL MB SS E E') as H. destruct o' as [new' t1'|]; [|contradiction]. exists new', t1'. tauto.
  - intros t t' x o' SS E E'. pose proof (emit_sounds c c' t t' _ _ CL MB SS E E') as H. destruct o' as [|x']; [contradiction|]. exists x'. auto.
Qed.

(** ** The pictures do not depend on the sound, and a conversion not on the future *)
(** two conversions in the same state except for the input still to come *)
Definition heard (e : enc) (audio : list Z) (frames : list frame) : enc :=
  {| e_at := e_at e; e_last := e_last e; e_target := e_target e; e_op_seq := e_op_seq e; e_audio := audio; e_frames := frames |}.
Definition with_input (s : stream) (out audio : list Z) (frames : list frame) : stream := {| s_out := out; s_movie := s_movie s; s_enc := heard (s_enc s) audio frames |}.

Lemma follow_heard m e a f : follow_bank m (heard e a f) = match follow_bank m e with Ok e1 => Ok (heard e1 a f) | Raise x => Raise x end.
Proof. unfold follow_bank. cbn [heard e_last e_target]. destruct (Bool.eqb _ _); [reflexivity|]. destruct (e_target e); reflexivity. Qed.
Definition same_but_tick (op op' : opcode) (au au' : Z) : Prop := same_picture op op' /\ (au = au' -> op = op').
Lemma rest_input c t m2 e2 au au' a f oop m1 e1 x :
  (let! e3 := follow_bank m2 e2 in
   match e_op_seq e3 with
   | None => Raise TypeError
   | Some g =>
       let! (change, v', g') := next (c_table c) (c_draws c t) (m_video m2) g in
       let '(page, content, offsets) := change in
       let! op := tick_opcode (au * 2 + 34) page content offsets in
       Ok (Some op,
           {| m_pos := m_pos m2; m_ticks := m_ticks m2; m_aux := m_aux m2; m_frame_number := m_frame_number m2; m_video := v' |},
           {| e_at := InLoop; e_last := e_last e3; e_target := e_target e3; e_op_seq := Some g'; e_audio := e_audio e3; e_frames := e_frames e3 |})
   end) = Ok (oop, m1, e1) ->
  (let! e3 := follow_bank m2 (heard e2 a f) in
   match e_op_seq e3 with
   | None => Raise TypeError
   | Some g =>
       let! (change, v', g') := next (c_table c) (c_draws c t) (m_video m2) g in
       let '(page, content, offsets) := change in
       let! op := tick_opcode (au' * 2 + 34) page content offsets in
       Ok (Some op,
           {| m_pos := m_pos m2; m_ticks := m_ticks m2; m_aux := m_aux m2; m_frame_number := m_frame_number m2; m_video := v' |},
           {| e_at := InLoop; e_last := e_last e3; e_target := e_target e3; e_op_seq := Some g'; e_audio := e_audio e3; e_frames := e_frames e3 |})
   end) = Ok x ->
  exists op op', oop = Some op /\ x = (Some op', m1, heard e1 a f) /\ same_but_tick op op' au au' /\ wide op /\ wide op' /\ e_audio e1 = e_audio e2 /\ e_frames e1 = e_frames e2.
Proof.
  rewrite follow_heard. destruct (follow_bank m2 e2) as [e3|] eqn:F; [|discriminate]. cbn [rbind heard e_op_seq e_last e_target e_audio e_frames].
  destruct (follow_keeps _ _ _ F) as (A & B & _). destruct (e_op_seq e3) as [g|]; [|discriminate]. destruct (next _ _ _ g) as [[[[[page content] offsets] v'] g']|]; [|discriminate]. cbn [rbind].
  destruct (tick_opcode _ _ _ _) as [op|] eqn:T; [|discriminate]. cbn [rbind]. destruct (tick_opcode_len _ _ _ _ _ T) as [-> L]. intros E. injection E as <- <- <-. clear T.
  destruct (tick_opcode _ _ _ _) as [op|] eqn:T; [|discriminate]. cbn [rbind]. destruct (tick_opcode_len _ _ _ _ _ T) as [-> _]. intros E. injection E as <-.
  exists (Tick (au * 2 + 34) page content offsets), (Tick (au' * 2 + 34) page content offsets). split; [reflexivity|]. split; [reflexivity|]. split; [split; [cbn; auto|intros ->; reflexivity]|].
  split; [exact L|]. split; [exact L|]. cbn [e_audio e_frames]. auto.
Qed.
Lemma next_input c m e audio' f2 op m1 e1 x : encode_next c m e = Ok (Some op, m1, e1) ->
  (e_at e <> AtStart -> e_audio e <> [] -> audio' <> []) -> encode_next c m (heard e audio' (e_frames e ++ f2)) = Ok x ->
  exists op' audio1', x = (Some op', m1, heard e1 audio1' (e_frames e1 ++ f2)) /\ wide op /\ wide op' /\ same_picture op op' /\
    ((audio' = audio1' /\ e_audio e1 = e_audio e /\ op = op') \/ exists au au', e_audio e = au :: e_audio e1 /\ audio' = au' :: audio1' /\ (au = au' -> op = op')).
Proof.
  intros E NE. 
  assert (TB : forall last au audio au' a x, tick_body c m {| e_at := InLoop; e_last := last; e_target := e_target e; e_op_seq := e_op_seq e; e_audio := audio; e_frames := e_frames e |} au = Ok (Some op, m1, e1) ->
    tick_body c m {| e_at := InLoop; e_last := last; e_target := e_target e; e_op_seq := e_op_seq e; e_audio := a; e_frames := e_frames e ++ f2 |} au' = Ok x ->
    exists op', x = (Some op', m1, heard e1 a (e_frames e1 ++ f2)) /\ same_but_tick op op' au au' /\ wide op /\ wide op' /\ e_audio e1 = audio).
  { clear. intros last au audio au' a x. unfold tick_body. cbv zeta. destruct (c_clock c (m_ticks m + 1) (m_frame_number m)).
    - unfold new_frame. cbn [e_frames e_audio e_last e_target e_op_seq]. destruct (e_frames e) as [|f frames]; [discriminate|]. cbn [app].
      destruct (c_every_n c =? 0); [discriminate|]. destruct (_ mod _ =? 0); cbn [rbind]; intros E E'.
      + match type of E with context [follow_bank ?m2 ?e2] => destruct (rest_input c (m_ticks m + 1) m2 e2 au au' a (frames ++ f2) _ _ _ _ E E') as (op1 & op' & A & B & C & D & F & G & H) end.
        injection A as <-. exists op'. cbn [e_audio e_frames] in G, H. rewrite H. auto.
      + match type of E with context [follow_bank ?m2 ?e2] => destruct (rest_input c (m_ticks m + 1) m2 e2 au au' a (frames ++ f2) _ _ _ _ E E') as (op1 & op' & A & B & C & D & F & G & H) end.
        injection A as <-. exists op'. cbn [e_audio e_frames] in G, H. rewrite H. auto.
    - cbn [rbind]. intros E E'.
      match type of E with context [follow_bank ?m2 ?e2] => destruct (rest_input c (m_ticks m + 1) m2 e2 au au' a (e_frames e ++ f2) _ _ _ _ E E') as (op1 & op' & A & B & C & D & F & G & H) end.
      injection A as <-. exists op'. cbn [e_audio e_frames] in G, H. rewrite H. auto. }
  unfold encode_next in *. cbn [heard e_at e_audio e_last e_target e_op_seq e_frames]. destruct (e_at e).
  - injection E as <- <- <-. intros X. injection X as <-. exists (Header (c_mode c)), audio'. split; [reflexivity|]. split; [exact Logic.I|]. split; [exact Logic.I|]. split; [reflexivity|]. left. auto.
  - destruct (e_audio e) as [|au audio]; [discriminate|]. destruct audio' as [|au' a]; [destruct (NE ltac:(discriminate) ltac:(discriminate) eq_refl)|]. intros X.
    destruct (TB _ _ _ _ _ _ E X) as (op' & A & [B1 B2] & C & D & F). exists op', a. split; [exact A|]. split; [exact C|]. split; [exact D|]. split; [exact B1|]. right. exists au, au'. rewrite F. auto.
  - destruct (e_audio e) as [|au audio]; [discriminate|]. destruct audio' as [|au' a]; [destruct (NE ltac:(discriminate) ltac:(discriminate) eq_refl)|]. intros X.
    destruct (TB _ _ _ _ _ _ E X) as (op' & A & [B1 B2] & C & D & F). exists op', a. split; [exact A|]. split; [exact C|]. split; [exact D|]. split; [exact B1|]. right. exists au, au'. rewrite F. auto.
  - discriminate.
Qed.

Lemma emit_input c s out' audio' f2 ops s1 o' : emit_step c s = Ok (More ops s1) -> length out' = length (s_out s) ->
  (e_at (s_enc s) <> AtStart -> e_audio (s_enc s) <> [] -> audio' <> []) ->
  emit_step c (with_input s out' audio' (e_frames (s_enc s) ++ f2)) = Ok o' ->
  exists ops' out1' audio1', o' = More ops' (with_input s1 out1' audio1' (e_frames (s_enc s1) ++ f2)) /\ length out1' = length (s_out s1) /\ Forall2 same_picture ops ops' /\
    ((audio' = audio1' /\ e_audio (s_enc s1) = e_audio (s_enc s) /\ ops = ops') \/
     exists au au', e_audio (s_enc s) = au :: e_audio (s_enc s1) /\ audio' = au' :: audio1' /\ (au = au' -> ops = ops')).
Proof.
  intros E L NE. unfold emit_step, with_input. cbn [s_movie s_enc s_out]. unfold emit_step in E.
  destruct (encode_next c (s_movie s) (s_enc s)) as [[[oop m1] e1]|] eqn:N; [|discriminate]. cbn [rbind] in E. destruct oop as [op|]; [|discriminate].
  destruct (encode_next c (s_movie s) (heard _ _ _)) as [x|] eqn:N'; [|discriminate]. cbn [rbind].
  destruct (next_input _ _ _ _ _ _ _ _ _ N NE N') as (op' & audio1' & -> & W & W' & SP & AU).
  destruct (negb _ && _); [discriminate|]. unfold emit_bytes in *. cbn [s_movie s_out s_enc m_pos] in *. rewrite (wide_len _ _ W) in E. rewrite (wide_len _ _ W').
  assert (SA : forall a, machine_emit (c_start c) (Ack a) = [Z.shiftr (c_start c ACK) 8; Z.land (c_start c ACK) 255; if a then 0x55 else 0x54; 0xff]) by reflexivity.
  destruct (2044 <=? _).
  - destruct (assert_some _ _ _ E) as [_ Y]. injection Y as <- <-. intros X. destruct (assert_some _ _ _ X) as [_ Y]. injection Y as <-. clear X E. cbn [s_enc s_out s_movie].
    eexists _, _, audio1'. split; [unfold with_input; cbn [s_movie s_enc s_out]; reflexivity|].
    split; [rewrite !app_length, L, (wide_len _ _ W), (wide_len _ _ W'); reflexivity|]. split; [constructor; [exact SP|constructor; [reflexivity|constructor]]|].
    destruct AU as [(A & B & ->)|(au & au' & A & B & D)]; [left; auto|right]. exists au, au'. split; [exact A|]. split; [exact B|]. intros Q. rewrite (D Q). reflexivity.
  - injection E as <- <-. intros X. injection X as <-. cbn [s_enc s_out s_movie].
    eexists _, _, audio1'. split; [unfold with_input; cbn [s_movie s_enc s_out]; reflexivity|].
    split; [rewrite !app_length, L, (wide_len _ _ W), (wide_len _ _ W'); reflexivity|]. split; [constructor; [exact SP|constructor]|].
    destruct AU as [(A & B & ->)|(au & au' & A & B & D)]; [left; auto|right]. exists au, au'. split; [exact A|]. split; [exact B|]. intros Q. rewrite (D Q). reflexivity.
Qed.
(** the pictures *)
Definition pictures (s s' : stream) : Prop := exists out' audio', s' = with_input s out' audio' (e_frames (s_enc s)) /\ length out' = length (s_out s) /\ length audio' = length (e_audio (s_enc s)).
Lemma emit_pictures c s s' ops s1 o' : pictures s s' -> emit_step c s = Ok (More ops s1) -> emit_step c s' = Ok o' ->
  exists ops' s1', o' = More ops' s1' /\ Forall2 same_picture ops ops' /\ pictures s1 s1'.
Proof.
  intros (out' & audio' & -> & L & LA) E E'. rewrite <- (app_nil_r (e_frames (s_enc s))) in E'.
  assert (NE : e_at (s_enc s) <> AtStart -> e_audio (s_enc s) <> [] -> audio' <> []) by (intros _ X ->; destruct (e_audio (s_enc s)); [congruence|discriminate]).
  destruct (emit_input c s out' audio' [] ops s1 o' E L NE E') as (ops' & out1' & audio1' & -> & L1 & F & AU). rewrite app_nil_r.
  eexists _, _. split; [reflexivity|]. split; [exact F|]. exists out1', audio1'. split; [reflexivity|]. split; [exact L1|].
  destruct AU as [(A & B & _)|(au & au' & A & B & _)]; [congruence|]. rewrite A, B in LA. injection LA as LA. exact LA.
Qed.
Lemma fin_pictures c s s' b o' : pictures s s' -> emit_step c s = Ok (Finished b) -> emit_step c s' = Ok o' -> exists b', o' = Finished b' /\ length b = length b'.
Proof.
  intros (out' & audio' & -> & L & LA) E. unfold emit_step, with_input. cbn [s_movie s_enc s_out]. unfold emit_step in E.
  destruct (encode_next c (s_movie s) (s_enc s)) as [[[oop m1] e1]|] eqn:N; [|discriminate]. cbn [rbind] in E.
  destruct (encode_next c (s_movie s) (heard _ _ _)) as [[[oop' m1'] e1']|] eqn:N'; [|discriminate]. cbn [rbind].
  assert (PM : m_pos m1' = m_pos m1) by (apply draws in N; apply draws in N'; rewrite (proj1 N), (proj1 N'); reflexivity).
  assert (DN : forall e2 e2', length (done c {| s_out := s_out s; s_movie := m1; s_enc := e2 |}) = length (done c {| s_out := out'; s_movie := m1'; s_enc := e2' |}))
    by (intros; rewrite !done_len; cbn [s_out s_movie]; rewrite L, PM; reflexivity).
  destruct oop as [op|].
  - destruct (negb _ && _) eqn:LT.
    + injection E as <-. rewrite PM. destruct oop' as [op'|]; [rewrite LT|]; intros X; injection X as <-; eexists; (split; [reflexivity|apply DN]).
    + destruct (2044 <=? _); [|discriminate]. destruct (assert_some _ _ _ E) as [_ Y]. discriminate.
  - injection E as <-. assert (oop' = None) as ->; [|intros X; injection X as <-; eexists; split; [reflexivity|apply DN]].
    apply draws in N. apply draws in N'. destruct N as [_ N]. destruct N' as [_ N']. cbn [heard e_at e_audio e_frames] in N'.
    assert (K : forall au audio, (let due := c_clock c (m_ticks (s_movie s) + 1) (m_frame_number (s_movie s)) in
             m_frame_number m1 = (if due then m_frame_number (s_movie s) + 1 else m_frame_number (s_movie s)) /\
             if due && (match e_frames (s_enc s) with [] => true | _ => false end) then @None opcode = None /\ e_at e1 = AtEnd /\ e_frames e1 = e_frames (s_enc s)
             else (exists p ct os, None = Some (Tick (au * 2 + 34) p ct os) /\ length os = 4%nat) /\ e_at e1 = InLoop /\ e_frames e1 = (if due then tl (e_frames (s_enc s)) else e_frames (s_enc s))) ->
      forall au', (let due := c_clock c (m_ticks (s_movie s) + 1) (m_frame_number (s_movie s)) in
             m_frame_number m1' = (if due then m_frame_number (s_movie s) + 1 else m_frame_number (s_movie s)) /\
             if due && (match e_frames (s_enc s) with [] => true | _ => false end) then oop' = None /\ e_at e1' = AtEnd /\ e_frames e1' = e_frames (s_enc s)
             else (exists p ct os, oop' = Some (Tick (au' * 2 + 34) p ct os) /\ length os = 4%nat) /\ e_at e1' = InLoop /\ e_frames e1' = (if due then tl (e_frames (s_enc s)) else e_frames (s_enc s))) ->
      audio = audio :> list Z -> oop' = None).
    { cbv zeta. intros au _ [_ X] au' [_ Y] _. destruct (_ && _); [tauto|]. destruct X as ((p & ct & os & X & _) & _). discriminate. }
    destruct (e_at (s_enc s)); [destruct N as (N & _); discriminate| | |destruct N' as (N' & _); exact N'].
    + destruct (e_audio (s_enc s)) as [|au audio], audio' as [|au' a]; try discriminate LA; [destruct N' as (N' & _); exact N'|].
      destruct N as (_ & _ & N), N' as (_ & _ & N'). exact (K au [] N au' N' eq_refl).
    + destruct (e_audio (s_enc s)) as [|au audio], audio' as [|au' a]; try discriminate LA; [destruct N' as (N' & _); exact N'|].
      destruct N as (_ & _ & N), N' as (_ & _ & N'). exact (K au [] N au' N' eq_refl).
Qed.
Lemma picture_independent c audio audio' frames ops ops' s s' b b' : length audio' = length audio ->
  stream_run c (movie_new c audio frames) ops s -> emit_step c s = Ok (Finished b) -> stream_run c (movie_new c audio' frames) ops' s' -> emit_step c s' = Ok (Finished b') ->
  Forall2 same_picture ops ops' /\ length b = length b'.
Proof.
  intros L R F R' F'. refine (lock_all c c pictures same_picture (fun x y => length x = length y) _ _ _ _ _ _ _ R F _ _ _ _ R' F').
  - intros t t' new t1 o' SS E E'. exact (emit_pictures c t t' new t1 o' SS E E').
  - intros t t' x o' SS E E'. exact (fin_pictures c t t' x o' SS E E').
  - exists [], audio'. split; [reflexivity|]. split; [reflexivity|exact L].
Qed.
(** the future *)
Definition extended (a2 : list Z) (f2 : list frame) (s s' : stream) : Prop :=
  exists out', s' = with_input s out' (e_audio (s_enc s) ++ a2) (e_frames (s_enc s) ++ f2) /\ length out' = length (s_out s).
Lemma emit_extended a2 f2 c s s' ops s1 o' : extended a2 f2 s s' -> emit_step c s = Ok (More ops s1) -> emit_step c s' = Ok o' ->
  exists ops' s1', o' = More ops' s1' /\ Forall2 eq ops ops' /\ extended a2 f2 s1 s1'.
Proof.
  intros (out' & -> & L) E E'.
  assert (NE : e_at (s_enc s) <> AtStart -> e_audio (s_enc s) <> [] -> e_audio (s_enc s) ++ a2 <> []) by (intros _ X Y; apply app_eq_nil in Y; tauto).
  destruct (emit_input c s out' _ f2 ops s1 o' E L NE E') as (ops' & out1' & audio1' & -> & L1 & F & AU).
  assert (EO : ops = ops' /\ audio1' = e_audio (s_enc s1) ++ a2).
  { destruct AU as [(A & B & D)|(au & au' & A & B & D)]; [rewrite B; auto|]. rewrite A in B. cbn [app] in B. injection B as -> B. split; [exact (D eq_refl)|auto]. }
  destruct EO as [<- ->]. eexists _, _. split; [reflexivity|]. split; [clear; induction ops; constructor; auto|]. exists out1'. auto.
Qed.
Lemma extended_prefix c audio a2 frames f2 ops ops' s s' b b' :
  stream_run c (movie_new c audio frames) ops s -> emit_step c s = Ok (Finished b) -> stream_run c (movie_new c (audio ++ a2) (frames ++ f2)) ops' s' -> emit_step c s' = Ok (Finished b') ->
  exists more, ops' = ops ++ more.
Proof.
  intros R F R' F'. destruct (lock c c (extended a2 f2) eq (emit_extended a2 f2 c) _ _ _ _ R (ex_intro _ [] (conj eq_refl eq_refl)) _ _ _ R' F') as (ops1 & s1 & more & -> & _ & E & _).
  exists more. f_equal. clear - E. induction E; congruence.
Qed.
