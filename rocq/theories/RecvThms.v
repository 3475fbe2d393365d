(** op_ack followed by the receive check. *)
From Verif Require Import Base BaseFacts OpcodeModel AsmModel PlayerCode CpuModel PlayerModel PlayerSpec PlayerExec ChipProofs TickExec RecvCode EffectProofs TickThms RunProofs RecvProofs.
From Coq Require Import FMapPositive.
Opaque lowcode code hgr resident symbols code_map.

Lemma ack_wait_runs stream sched m rd :
  bytes_ok stream -> pc m = 0xBA72 -> ready stream rd (rd + 2046) m -> rd mod 256 = 0 -> rd + 4096 <= wr (net m) ->
  sb stream (rd + 2046) = 0x54 \/ sb stream (rd + 2046) = 0x55 -> kbd m < 128 -> (forall i, e_key (sched i) = None) ->
  exists n m', (0 < n)%nat /\ run stream sched n m = Some m' /\ ready stream (rd + 2048) (rd + 2050) m' /\
    pc m' = 256 * sb stream (rd + 2048) + sb stream (rd + 2049) /\
    effect m m' (2 * 73) [4; 4 + 34; 73 + 4; 73 + 4 + 34] [] [0xC000 + sb stream (rd + 2046)]
      [sb stream (rd + 2046); sb stream (rd + 2047); sb stream (rd + 2048); sb stream (rd + 2049)] /\
    sw80 m' = sw80 m /\ swpage2 m' = (sb stream (rd + 2046) =? 0x55) /\ swhires m' = swhires m /\ rxrd (net m') = (rd + 2048) mod 65536.
Proof.
  intros BO H1 H2 H3 H4 H5 K NK.
  destruct (ack_runs stream sched m rd H1 H2 H3 ltac:(lia) H5) as (n1 & m1 & R1 & N1 & (W1 & E1 & S1 & S2 & S3 & W4) & _).
  destruct (wait_runs stream (fun i => sched (n1 + i)%nat) m1 _ _ W1) as (n2 & m2 & R2 & N2 & O2).
  destruct (run_log _ _ _ _ _ R1) as (_ & _ & K1).
  assert (K1' : kbd m1 < 128) by (apply K1; [exact K|intros i _; apply NK]).
  destruct O2 as [(_ & _ & _ & X & _)|[(_ & _ & _ & X & _)|((RD & PC & E2 & (T1 & T2 & T3) & _) & _)]].
  - exfalso. clear - X W4 H4. lia.
  - exfalso. apply X. split; [exact K1'|intros i _; apply NK].
  - exists (n1 + n2)%nat, m2. split; [lia|]. split; [eapply run_app; eauto|].
    replace (rd + 2050) with (rd + 2048 + 2) by lia. replace (rd + 2049) with (rd + 2048 + 1) by lia. split; [exact RD|]. split; [exact PC|].
    split; [exact (effect_trans _ _ _ _ _ _ _ _ _ _ _ _ _ E1 E2)|]. split; [congruence|]. split; [congruence|]. split; [congruence|]. exact (rdy_rxrd _ _ _ _ RD).
Qed.

(** ** A memory with the program in it *)
Definition image_of (l : list (Z * stmt)) : PositiveMap.t Z :=
  fold_left (fun mm '(a, s) =>
    match encode symbols a s with
    | Some bs => snd (fold_left (fun '(a, mm) '(_, b) => (a + 1, PositiveMap.add (Z.to_pos a) b mm)) bs (a, mm))
    | None => mm
    end) l (PositiveMap.empty Z).
Definition image_at (im : PositiveMap.t Z) (a : Z) : Z := match a with Zpos p => match PositiveMap.find p im with Some b => b | None => 0 end | _ => 0 end.
Fixpoint bytes_at (im : PositiveMap.t Z) (a : Z) (bs : list (bool * Z)) : bool :=
  match bs with [] => true | (_, b) :: bs' => (image_at im a =? b) && bytes_at im (a + 1) bs' end.
Definition image_ok (im : PositiveMap.t Z) (l : list (Z * stmt)) : bool :=
  forallb (fun '(a, s) => match encode symbols a s with Some bs => bytes_at im a bs | None => true end) l.
Definition program := resident ++ startup.
Lemma program_image : (let im := image_of program in image_ok im program) = true.
Proof. vm_compute. reflexivity. Qed.
Lemma program_in a s : In (a, s) resident \/ In (a, s) startup <-> In (a, s) program.
Proof. unfold program. rewrite in_app_iff. reflexivity. Qed.
Opaque program.
Lemma bytes_at_nth im bs : forall a i x b, bytes_at im a bs = true -> nth_error bs i = Some (x, b) -> image_at im (a + Z.of_nat i) = b.
Proof.
  induction bs as [|[x0 b0] bs IH]; intros a i x b H N; [destruct i; discriminate|]. cbn [bytes_at] in H. apply andb_true_iff in H. destruct H as [H1 H2].
  destruct i as [|i]; cbn [nth_error] in N.
  - injection N as _ <-. rewrite Z.add_0_r. apply Z.eqb_eq, H1.
  - replace (a + Z.of_nat (S i)) with (a + 1 + Z.of_nat i) by lia. eapply IH; eauto.
Qed.
Definition program_memory : bool -> Z -> Z := fun b a => if b then 0 else image_at (image_of program) a.
Lemma image_loaded im l mm : image_ok im l = true -> (forall a, mm a = image_at im a) ->
  forall a s bytes i b, In (a, s) l -> encode symbols a s = Some bytes -> nth_error bytes i = Some (true, b) -> mm (a + Z.of_nat i) = b.
Proof.
  intros H M a s bytes i b I E N. unfold image_ok in H. rewrite forallb_forall in H. specialize (H _ I). cbn in H. rewrite E in H. rewrite M. eapply bytes_at_nth; eauto.
Qed.
Lemma memory_loaded m : mem m = program_memory -> loaded resident m /\ loaded startup m.
Proof.
  intros M. split; intros a s bytes i b I E N; rewrite M; unfold program_memory; refine (image_loaded (image_of program) program _ program_image (fun a => eq_refl) a s bytes i b _ E N); apply program_in; auto.
Qed.
