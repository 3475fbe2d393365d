(** Facts about any run of the machine. *)
From Verif Require Import Base BaseFacts AsmModel CpuModel PlayerSpec.

(** [m'] has everything [m] has logged and read; keys only appear when pressed *)
Definition later (m m' : machine) : Prop :=
  (exists new, log m' = log m ++ new) /\ (exists got, taken m' = taken m ++ got) /\ (kbd m < 128 -> kbd m' < 128).
Lemma later_refl m : later m m.
Proof. split; [exists []; rewrite app_nil_r; reflexivity|]. split; [exists []; rewrite app_nil_r; reflexivity|auto]. Qed.
Lemma later_trans a b c : later a b -> later b c -> later a c.
Proof.
  intros ((n1 & L1) & (g1 & T1) & K1) ((n2 & L2) & (g2 & T2) & K2). split; [exists (n1 ++ n2); rewrite L2, L1, app_assoc; reflexivity|].
  split; [exists (g1 ++ g2); rewrite T2, T1, app_assoc; reflexivity|auto].
Qed.
Lemma later_same m m' : log m' = log m -> taken m' = taken m -> kbd m' = kbd m -> later m m'.
Proof. intros L T K. split; [exists []; rewrite app_nil_r; exact L|]. split; [exists []; rewrite app_nil_r; exact T|rewrite K; auto]. Qed.
Ltac same := apply later_same; reflexivity.
Lemma strobe_small k : k mod 128 < 128.
Proof. apply Z.mod_pos_bound. reflexivity. Qed.
Lemma read_later a m v m' : bus_read a m = Some (v, m') -> later m m'.
Proof.
  unfold bus_read. destruct (_ && _); [|intros H; injection H as _ <-; apply later_refl].
  destruct (a =? 0xC097).
  { intros H. injection H as _ <-. destruct (in_rx _); [|same]. split; [exists []; rewrite app_nil_r; reflexivity|]. split; [eexists; reflexivity|auto]. }
  destruct (a =? 0xC095); [intros H; injection H as _ <-; apply later_refl|].
  destruct (a =? 0xC096); [intros H; injection H as _ <-; apply later_refl|].
  destruct (a =? 0xC000); [intros H; injection H as _ <-; apply later_refl|].
  destruct (a =? 0xC010); [|discriminate]. intros H. injection H as _ <-.
  split; [exists []; rewrite app_nil_r; reflexivity|]. split; [exists []; rewrite app_nil_r; reflexivity|]. intros _. apply strobe_small.
Qed.
Lemma io_later a v m m' : io_write a v m = Some m' -> later m m'.
Proof.
  unfold io_write. repeat match goal with |- context [if ?b then _ else _] => destruct b end;
    try (intros H; injection H as <-; same); try discriminate.
  - destruct (chip_poke v (net m)); [|discriminate]. intros H. injection H as <-. same.
  - intros H. injection H as <-. split; [exists []; rewrite app_nil_r; reflexivity|]. split; [exists []; rewrite app_nil_r; reflexivity|]. intros _. apply strobe_small.
Qed.
Lemma write_later a v m m' : bus_write a v m = Some m' -> later m m'.
Proof.
  unfold bus_write. set (w := Wrt _ _ _ _). set (m1 := with_mem _ _ m).
  assert (L : later m m1) by (split; [exists [w]; reflexivity|split; [exists []; rewrite app_nil_r; reflexivity|auto]]).
  destruct (_ && _); [|intros H; injection H as <-; exact L]. intros H. exact (later_trans _ _ _ L (io_later _ _ _ _ H)).
Qed.
Lemma alu_later i b m m' : alu i b m = Some m' -> later m m'.
Proof. destruct i; cbn [alu]; try discriminate; intros H; injection H as <-; same. Qed.
Lemma load_later i md v m m' : load i md v m = Some m' -> later m m'.
Proof.
  unfold load. destruct md; try (destruct (bus_read _ m) as [[b m1]|] eqn:R; [|discriminate]; intros H; exact (later_trans _ _ _ (read_later _ _ _ _ R) (alu_later _ _ _ _ H))).
  apply alu_later.
Qed.
Lemma push_later v m m' : push v m = Some m' -> later m m'.
Proof.
  unfold push. destruct (bus_write _ v m) as [m1|] eqn:W; [|discriminate]. intros H. injection H as <-. refine (later_trans _ _ _ (write_later _ _ _ _ W) _). same.
Qed.
Lemma branch_later b v m m' : branch b v m = Some m' -> later m m'.
Proof. unfold branch. intros H. injection H as <-. destruct b; same. Qed.
Lemma ins_later i md v m m' : exec_ins i md v m = Some m' -> later m m'.
Proof.
  destruct i; cbn [exec_ins]; try (apply load_later); try (apply write_later); try (apply branch_later); try discriminate;
    try (intros H; injection H as <-; same).
  - destruct (bus_read _ m) as [[b m1]|] eqn:R; [|discriminate]. intros H. apply write_later in H. apply read_later in R.
    refine (later_trans _ _ _ R (later_trans _ _ _ _ H)). same.
  - destruct (bus_read _ m) as [[b m1]|] eqn:R; [|discriminate]. intros H. apply write_later in H. apply read_later in R.
    refine (later_trans _ _ _ R (later_trans _ _ _ _ H)). same.
  - destruct (push _ m) as [m1|] eqn:P1; [|discriminate]. destruct (push _ m1) as [m2|] eqn:P2; [|discriminate]. intros H. injection H as <-.
    refine (later_trans _ _ _ (push_later _ _ _ P1) (later_trans _ _ _ (push_later _ _ _ P2) _)). same.
Qed.
Lemma exec_later m m' : exec m = Some m' -> later m m'.
Proof.
  unfold exec. destruct (pc m =? 0xF3F2).
  { unfold rom_clear. destruct (_ =? 0x20); [|discriminate]. intros H. injection H as <-. same. }
  destruct (pc m =? 0xFDED). { intros H. injection H as <-. same. }
  destruct (fetch m) as [[[i md] v]|]; [|discriminate]. intros H. apply ins_later in H. refine (later_trans _ _ _ _ H). same.
Qed.
Lemma before_log stream e m : log (before stream e m) = log m /\ taken (before stream e m) = taken m /\ (e_key e = None -> kbd (before stream e m) = kbd m).
Proof. unfold before, press. destruct (e_key e); cbn; repeat split; discriminate || reflexivity. Qed.
Lemma step_log stream e m m' : step stream e m = Some m' ->
  (exists new, log m' = log m ++ new) /\ (exists got, taken m' = taken m ++ got) /\ (kbd m < 128 -> e_key e = None -> kbd m' < 128).
Proof.
  unfold step. intros H. apply exec_later in H. destruct H as (A & B & C). destruct (before_log stream e m) as (X & Y & Z). rewrite X in A. rewrite Y in B.
  split; [exact A|]. split; [exact B|]. intros K N. apply C. rewrite Z by exact N. exact K.
Qed.
Lemma run_log stream n : forall sched m m', run stream sched n m = Some m' ->
  (exists new, log m' = log m ++ new) /\ (exists got, taken m' = taken m ++ got) /\ (kbd m < 128 -> no_keys sched n -> kbd m' < 128).
Proof.
  induction n as [|n IH]; intros sched m m' R; cbn [run] in R.
  - injection R as <-. split; [exists []; rewrite app_nil_r; reflexivity|]. split; [exists []; rewrite app_nil_r; reflexivity|auto].
  - destruct (step stream (sched O) m) as [m1|] eqn:ST; [|discriminate]. destruct (step_log _ _ _ _ ST) as ((n1 & L1) & (g1 & T1) & K1).
    destruct (IH _ _ _ R) as ((n2 & L2) & (g2 & T2) & K2).
    split; [exists (n1 ++ n2); rewrite L2, L1, app_assoc; reflexivity|]. split; [exists (g1 ++ g2); rewrite T2, T1, app_assoc; reflexivity|].
    intros K N. apply K2; [apply K1; [exact K|apply N; lia]|]. intros i Hi. apply (N (S i)). lia.
Qed.
(** runs split anywhere *)
Lemma run_split stream k : forall n sched m m', (k <= n)%nat -> run stream sched n m = Some m' ->
  exists m1, run stream sched k m = Some m1 /\ run stream (fun i => sched (k + i)%nat) (n - k) m1 = Some m'.
Proof.
  induction k as [|k IH]; intros n sched m m' L R.
  - exists m. split; [reflexivity|]. rewrite Nat.sub_0_r. exact R.
  - destruct n as [|n]; [lia|]. cbn [run] in R |- *. destruct (step stream (sched O) m) as [m1|]; [|discriminate].
    apply (IH n (fun i => sched (S i)) m1 m' ltac:(lia) R).
Qed.

(** ** A pending key *)
(** if a key was pending, or one was pressed on the way, one is pending *)
Definition keyed (e : env) (kb kb' : Z) : Prop := (e_key e = None /\ kb' = kb) \/ (e_key e <> None /\ 128 <= kb' < 256).
Definition pend (sched : nat -> env) (n : nat) (kb kb' : Z) : Prop :=
  (128 <= kb \/ exists i, (i < n)%nat /\ e_key (sched i) <> None) -> 128 <= kb'.
Lemma pend_nil sched kb : pend sched 0 kb kb.
Proof. intros [H|(i & L & _)]; [exact H|lia]. Qed.
Lemma pend_step sched n kb kb1 kb' : keyed (sched O) kb kb1 -> pend (fun i => sched (S i)) n kb1 kb' -> pend sched (S n) kb kb'.
Proof.
  intros K P H. apply P. destruct K as [[N ->]|[_ K]]; [|left; lia]. destruct H as [H|([|i] & L & H)]; [left; exact H|contradiction|].
  right. exists i. split; [lia|exact H].
Qed.
Lemma pend_trans sched n k kb kb1 kb2 : pend sched n kb kb1 -> pend (fun i => sched (n + i)%nat) k kb1 kb2 -> pend sched (n + k) kb kb2.
Proof.
  intros P1 P2 H. destruct H as [H|(i & L & H)]; [apply P2; left; apply P1; left; exact H|].
  destruct (Nat.lt_ge_cases i n) as [X|X]; [apply P2; left; apply P1; right; eauto|].
  apply P2. right. exists (i - n)%nat. split; [lia|]. replace (n + (i - n))%nat with i by lia. exact H.
Qed.
Lemma before_keyed stream e m : keyed e (kbd m) (kbd (before stream e m)).
Proof.
  unfold before, press, keyed. destruct (e_key e) as [v|]; [right; split; [discriminate|]|left; auto]. cbn [kbd with_kbd].
  pose proof (Z.mod_pos_bound v 128 eq_refl). lia.
Qed.
Lemma read_kbd a m v m' : bus_read a m = Some (v, m') -> a <> 0xC010 -> kbd m' = kbd m.
Proof.
  unfold bus_read. destruct (_ && _); [|intros H; injection H as _ <-; reflexivity].
  destruct (a =? 0xC097). { intros H _. injection H as _ <-. destruct (in_rx _); reflexivity. }
  destruct (a =? 0xC095); [intros H; injection H as _ <-; reflexivity|].
  destruct (a =? 0xC096); [intros H; injection H as _ <-; reflexivity|].
  destruct (a =? 0xC000); [intros H; injection H as _ <-; reflexivity|].
  destruct (Z.eqb_spec a 0xC010); [contradiction|discriminate].
Qed.
Lemma io_kbd a v m m' : io_write a v m = Some m' -> a <> 0xC010 -> kbd m' = kbd m.
Proof.
  unfold io_write. intros H N. destruct (Z.eqb_spec a 0xC010) as [X|X]; [contradiction|].
  repeat match type of H with context [if ?b then _ else _] => destruct b end; try discriminate; try (injection H as <-; reflexivity).
  destruct (chip_poke v (net m)); [|discriminate]. injection H as <-. reflexivity.
Qed.
Lemma write_kbd a v m m' : bus_write a v m = Some m' -> a <> 0xC010 -> kbd m' = kbd m.
Proof.
  unfold bus_write. destruct (_ && _); [|intros H _; injection H as <-; reflexivity]. intros H N. exact (io_kbd _ _ _ _ H N).
Qed.
Lemma alu_kbd i b m m' : alu i b m = Some m' -> kbd m' = kbd m.
Proof. destruct i; cbn [alu]; try discriminate; intros H; injection H as <-; reflexivity. Qed.

(** ** Without arrivals nothing more arrives *)
Definition no_more (m m' : machine) : Prop := wr (net m') = wr (net m) \/ wr (net m') = 0.
Lemma nm_refl m : no_more m m.
Proof. left. reflexivity. Qed.
Lemma nm_trans a b c : no_more a b -> no_more b c -> no_more a c.
Proof. unfold no_more. intros [->|A] [->|B]; auto. Qed.
Lemma nm_same m m' : wr (net m') = wr (net m) -> no_more m m'.
Proof. left. assumption. Qed.
Ltac nsame := apply nm_same; reflexivity.
Lemma nm_net m m' : net m' = net m -> no_more m m'.
Proof. intros H. left. rewrite H. reflexivity. Qed.
Lemma poke_nm v c c' : chip_poke v c = Some c' -> wr c' = wr c \/ wr c' = 0.
Proof.
  unfold chip_poke, chip_command. repeat match goal with |- context [if ?b then _ else _] => destruct b end; try discriminate; intros H; injection H as <-; auto.
Qed.
Lemma next_wr c : wr (next_ptr c) = wr c.
Proof. unfold next_ptr. destruct (_ =? 3); reflexivity. Qed.
Lemma read_nm a m v m' : bus_read a m = Some (v, m') -> no_more m m'.
Proof.
  unfold bus_read. destruct (_ && _); [|intros H; injection H as _ <-; apply nm_refl].
  destruct (a =? 0xC097). { intros H. injection H as _ <-. left. destruct (in_rx _); exact (next_wr _). }
  repeat match goal with |- context [if ?b then _ else _] => destruct b end; try discriminate; intros H; injection H as _ <-; nsame.
Qed.
Lemma io_nm a v m m' : io_write a v m = Some m' -> no_more m m'.
Proof.
  unfold io_write. destruct (a =? 0xC094).
  { intros H. injection H as <-. unfold no_more, chip_mode. destruct (v =? 0x80); auto. }
  repeat match goal with |- context [if ?b then _ else _] => destruct b end;
    try (intros H; injection H as <-; nsame); try discriminate.
  destruct (chip_poke v (net m)) eqn:P; [|discriminate]. apply poke_nm in P. intros H. injection H as <-. unfold no_more. cbn [net with_net]. rewrite next_wr. exact P.
Qed.
Lemma write_nm a v m m' : bus_write a v m = Some m' -> no_more m m'.
Proof.
  unfold bus_write. set (w := Wrt _ _ _ _). set (m1 := with_mem _ _ m). assert (L : no_more m m1) by nsame.
  destruct (_ && _); [|intros H; injection H as <-; exact L]. intros H. exact (nm_trans _ _ _ L (io_nm _ _ _ _ H)).
Qed.
Lemma alu_nm i b m m' : alu i b m = Some m' -> no_more m m'.
Proof. destruct i; cbn [alu]; try discriminate; intros H; injection H as <-; nsame. Qed.
Lemma load_nm i md v m m' : load i md v m = Some m' -> no_more m m'.
Proof.
  unfold load. destruct md; try (destruct (bus_read _ m) as [[b m1]|] eqn:R; [|discriminate]; intros H; exact (nm_trans _ _ _ (read_nm _ _ _ _ R) (alu_nm _ _ _ _ H))).
  apply alu_nm.
Qed.
Lemma push_nm v m m' : push v m = Some m' -> no_more m m'.
Proof.
  unfold push. destruct (bus_write _ v m) as [m1|] eqn:W; [|discriminate]. intros H. injection H as <-. refine (nm_trans _ _ _ (write_nm _ _ _ _ W) _). nsame.
Qed.
Lemma branch_nm b v m m' : branch b v m = Some m' -> no_more m m'.
Proof. unfold branch. intros H. injection H as <-. destruct b; nsame. Qed.
Lemma ins_nm i md v m m' : exec_ins i md v m = Some m' -> no_more m m'.
Proof.
  destruct i; cbn [exec_ins]; try (apply load_nm); try (apply write_nm); try (apply branch_nm); try discriminate;
    try (intros H; injection H as <-; nsame).
  - destruct (bus_read _ m) as [[b m1]|] eqn:R; [|discriminate]. intros H. apply write_nm in H. apply read_nm in R.
    refine (nm_trans _ _ _ R (nm_trans _ _ _ _ H)). nsame.
  - destruct (bus_read _ m) as [[b m1]|] eqn:R; [|discriminate]. intros H. apply write_nm in H. apply read_nm in R.
    refine (nm_trans _ _ _ R (nm_trans _ _ _ _ H)). nsame.
  - destruct (push _ m) as [m1|] eqn:P1; [|discriminate]. destruct (push _ m1) as [m2|] eqn:P2; [|discriminate]. intros H. injection H as <-.
    refine (nm_trans _ _ _ (push_nm _ _ _ P1) (nm_trans _ _ _ (push_nm _ _ _ P2) _)). nsame.
Qed.
Lemma exec_nm m m' : exec m = Some m' -> no_more m m'.
Proof.
  unfold exec. destruct (pc m =? 0xF3F2).
  { unfold rom_clear. destruct (_ =? 0x20); [|discriminate]. intros H. injection H as <-. nsame. }
  destruct (pc m =? 0xFDED). { intros H. injection H as <-. nsame. }
  destruct (fetch m) as [[[i md] v]|]; [|discriminate]. intros H. apply ins_nm in H. refine (nm_trans _ _ _ _ H). nsame.
Qed.
