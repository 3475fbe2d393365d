(** C92: the speaker's carrier never drops. *)
From Verif Require Import Base BaseFacts ScreenModel ScreenSpec BitmapModel BitmapSpec VideoModel VideoSpec OpcodeModel MovieModel MovieSpec SymbolModel AddrThms
  AsmModel PlayerCode CpuModel PlayerModel PlayerSpec PlayerExec ChipProofs TickExec RecvCode EffectProofs TickThms RunProofs RecvProofs LayoutProofs PlaybackSpec StartupCode StartupProofs PlaybackRead PlaybackProofs PlaybackThms PlaybackConv
  MovieFinal PropMovie PropPlayback CarrierProofs.
Opaque lowcode code hgr resident startup symbols code_map op_cmds TABLES.

(** If no key is pressed, then from [m1], when the player begins to wait for the
    first frame, until it reaches TERMINATE at [m], however little the network
    delivers, the speaker is toggled again and again, each time 4 to 69 cycles
    after the last: there is a toggle in any 69 cycles. *)
Theorem C92_carrier : forall bytes k rest sched m0,
  playable bytes k rest -> connected bytes m0 -> delivers sched -> never_pressed sched m0 ->
  exists n1 m1 n m new, run bytes sched n1 m0 = Some m1 /\ waiting bytes 0 7 m1 /\ run bytes sched n m0 = Some m /\ terminated m /\
    log m = log m1 ++ new /\ let toggles := clicks new in
    hd_error toggles = Some (cyc m1 + 4) /\
    (forall i x y, nth_error toggles i = Some x -> nth_error toggles (S i) = Some y -> 4 <= y - x <= 69) /\
    forall x, cyc m1 + 4 <= x <= cyc m -> exists c, In c toggles /\ x - 69 < c <= x.
Proof.
  intros bytes k rest sched m0 PL C D NP. assert (U : user sched m0) by (left; exact NP).
  destruct (C46_clicks bytes k rest sched m0 PL C D U (length rest) (le_n _)) as (n1 & m1 & n & m & passes & new & R1 & W1 & R & A & LG & CK & CY & LP & Q).
  destruct (Q NP) as (ws & -> & TM). exists n1, m1, n, m, new. split; [exact R1|]. split; [exact W1|]. split; [exact R|].
  split. { destruct A as (A & _). unfold nth_command in A. assert (N : nth_error rest (length rest) = None) by (apply nth_error_None; lia). rewrite N in A. exact A. }
  split; [exact LG|]. assert (LW : length ws = count_passes (Header k :: firstn (length rest) rest)).
  { rewrite map_length in LP. unfold count_passes. cbn [filter takes_pass length]. pose proof (pl_ops _ _ _ PL) as PO. rewrite firstn_all in *.
    assert (F : filter takes_pass rest = filter is_ack rest).
    { clear - PO. induction PO as [|op l [H|H] F IH]; [reflexivity| |]; destruct op; try discriminate; cbn [filter takes_pass is_ack]; congruence. }
    rewrite F. unfold count in LP. lia. }
  pose proof (path_map (cyc m1) _ _ _ (path_clicks _ 0 ws (ticks_ok _ _ _ PL (length rest)) LW)) as P. rewrite <- CK in P.
  set (T := time_of 0 _ _) in *. assert (0 < T).
  { unfold count in TM. clear - CY TM. lia. }
  clearbody T. cbv zeta. split; [exact (path_hd _ _ _ P ltac:(lia))|]. split; [exact (path_gaps _ _ _ P)|].
  intros x X. apply (path_covers _ _ _ P). lia.
Qed.
Print Assumptions C92_carrier.

(** The hypotheses are met, by C47's conversion. *)
Example C92_case : exists bytes k rest, playable bytes k rest /\ connected bytes start_ex /\ delivers sched_ex /\ never_pressed sched_ex start_ex.
Proof.
  destruct C47_case as (bytes & rest & CV & C & D & NP & _). exists bytes, (c_mode config_47), rest.
  split; [exact (conversion_playable _ _ _ _ _ CV)|]. auto.
Qed.
