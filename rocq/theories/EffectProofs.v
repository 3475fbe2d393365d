(** Composing effects. *)
From Verif Require Import Base BaseFacts OpcodeModel AsmModel PlayerCode CpuModel PlayerModel PlayerSpec PlayerExec ChipProofs.
Opaque lowcode code hgr resident symbols code_map.

Lemma clicks_app l l' : clicks (l ++ l') = clicks l ++ clicks l'.
Proof. unfold clicks. rewrite filter_app, map_app. reflexivity. Qed.
Lemma stores_app l l' : stores (l ++ l') = stores l ++ stores l'.
Proof. unfold stores. rewrite filter_app, map_app. reflexivity. Qed.
Lemma switches_app l l' : switches (l ++ l') = switches l ++ switches l'.
Proof. unfold switches. rewrite filter_app, map_app. reflexivity. Qed.

Lemma store_same (mm mm' : bool -> Z -> Z) s :
  (forall b a, 0x2000 <= a < 0x4000 -> mm b a = mm' b a) ->
  forall b a, 0x2000 <= a < 0x4000 -> store1 mm s b a = store1 mm' s b a.
Proof.
  intros H b a A. destruct s as [[b' a'] v]. cbn [store1]. destruct (Bool.eqb b b'); [|apply H, A].
  unfold upd1. destruct (a =? a'); [reflexivity|apply H, A].
Qed.
Lemma stores_same st : forall (mm mm' : bool -> Z -> Z),
  (forall b a, 0x2000 <= a < 0x4000 -> mm b a = mm' b a) ->
  forall b a, 0x2000 <= a < 0x4000 -> fold_left store1 st mm b a = fold_left store1 st mm' b a.
Proof. induction st as [|s st IH]; intros mm mm' H b a A; [apply H, A|]. cbn [fold_left]. apply IH; [|exact A]. intros. apply store_same; assumption. Qed.

Lemma screen_writes new : forall mm b a, 0x2000 <= a < 0x4000 ->
  fold_left (fun mm w => write1 w mm) new mm b a = fold_left store1 (stores new) mm b a.
Proof.
  induction new as [|w new IH]; intros mm b a A; [reflexivity|]. cbn [fold_left]. rewrite IH by exact A.
  unfold stores. cbn [filter]. destruct (screen_write w) eqn:S; cbn [map fold_left]; fold (stores new).
  - apply stores_same; [|exact A]. intros b' a' A'. unfold write1. cbn [store1].
    unfold screen_write in S. apply andb_true_iff in S. destruct S as [S1 S2]. apply Z.ltb_lt in S2.
    destruct (Z.ltb_spec (w_addr w) 0xC000) as [L|L]; [reflexivity|lia].
  - apply stores_same; [|exact A]. intros b' a' A'. unfold write1. destruct (w_addr w <? 0xC000); [|reflexivity].
    destruct (Bool.eqb b' (w_aux w)); [|reflexivity]. unfold upd1. destruct (Z.eqb_spec a' (w_addr w)) as [E|E]; [|reflexivity].
    exfalso. unfold screen_write in S. rewrite <- E in S. apply andb_false_iff in S. rewrite Z.leb_gt, Z.ltb_ge in S. lia.
Qed.

Lemma effect_of m m' t ck st sw got new :
  cyc m' = cyc m + t -> log m' = log m ++ new -> clicks new = map (Z.add (cyc m)) ck -> stores new = st -> switches new = sw -> Forall allowed new ->
  mem m' = fold_left (fun mm w => write1 w mm) new (mem m) -> taken m' = taken m ++ got -> effect m m' t ck st sw got.
Proof.
  intros. constructor; auto.
  - exists new. auto.
  - intros b a A. rewrite H5, screen_writes by exact A. rewrite H2. reflexivity.
Qed.
Lemma effect_refl m : effect m m 0 [] [] [] [].
Proof. constructor; [lia| |reflexivity|rewrite app_nil_r; reflexivity]. exists []. rewrite app_nil_r. repeat split; constructor. Qed.
Lemma effect_trans m m1 m2 t1 t2 ck1 ck2 st1 st2 sw1 sw2 got1 got2 :
  effect m m1 t1 ck1 st1 sw1 got1 -> effect m1 m2 t2 ck2 st2 sw2 got2 ->
  effect m m2 (t1 + t2) (ck1 ++ map (Z.add t1) ck2) (st1 ++ st2) (sw1 ++ sw2) (got1 ++ got2).
Proof.
  intros [C1 (n1 & L1 & K1 & S1 & W1 & A1) E1 T1] [C2 (n2 & L2 & K2 & S2 & W2 & A2) E2 T2]. constructor.
  - lia.
  - exists (n1 ++ n2). rewrite L2, L1, app_assoc, clicks_app, stores_app, switches_app, K1, K2, S1, S2, W1, W2. split; [reflexivity|].
    split; [|split; [reflexivity|split; [reflexivity|apply Forall_app; auto]]].
    rewrite map_app, C1. f_equal. rewrite map_map. apply map_ext. intros x. lia.
  - intros b a A. rewrite E2, fold_left_app by exact A. apply stores_same; [|exact A]. exact E1.
  - rewrite T2, T1, app_assoc. reflexivity.
Qed.
