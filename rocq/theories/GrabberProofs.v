(** Proofs about the frame grabber. *)
From Verif Require Import Base BaseFacts ScreenModel ScreenSpec BitmapModel OpcodeModel SymbolModel SymbolSpec SymbolProofs GrabberModel GrabberSpec.

(** ** Loading *)
Lemma load_holds data m : load data = Ok m -> holds data m.
Proof.
  unfold load, as_array, flat_memory_new. cbn [Z.eqb Pos.eqb orb]. intros H.
  assert (L : Z.of_nat (length data) = 8192).
  { set (n := Z.of_nat (length data)) in *. clearbody n. destruct (Z.eq_dec n 8192) as [E|N]; [exact E|exfalso].
    assert (X : forall (d : flat), match Some ([n], d) with None => Ok {| fm_page := 1; fm_data := fun _ => 0 |} | Some ([8192], d) => Ok {| fm_page := 1; fm_data := d |} | Some _ => Raise ValueError end = Raise ValueError).
    { intros d. destruct n as [|q|q]; [reflexivity| |reflexivity]. do 14 (destruct q as [q|q|]; try reflexivity). exfalso. apply N. reflexivity. }
    rewrite X in H. discriminate H. }
  rewrite L in H. cbn [rbind] in H. unfold to_memory_map, memory_map_new in H. cbn [fm_page fm_data Z.eqb Pos.eqb orb] in H. injection H as <-.
  split; [exact L|]. split; [reflexivity|]. intros p o Hin. reflexivity.
Qed.
Lemma load_length data : Z.of_nat (length data) = 8192 -> exists m, load data = Ok m.
Proof. intros H. unfold load, as_array, flat_memory_new. rewrite H. cbn. eexists. reflexivity. Qed.
Lemma load_frame_of d m : load_frame d = Ok m -> frame_of (Ok d) m.
Proof.
  destruct d as [main [aux|]]; unfold load_frame; cbn [fst snd].
  - destruct (load main) as [m1|] eqn:E1; cbn [rbind]; [|discriminate]. destruct (load aux) as [m2|] eqn:E2; cbn [rbind]; [|discriminate].
    intros H. injection H as <-. split; [exact (load_holds _ _ E1)|exact (load_holds _ _ E2)].
  - destruct (load main) as [m1|] eqn:E1; cbn [rbind]; [|discriminate]. intros H. injection H as <-. exact (load_holds _ _ E1).
Qed.
Lemma load_complete d : complete_frame d -> exists m, load_frame d = Ok m.
Proof.
  destruct d as [main [aux|]]; unfold load_frame, complete_frame; cbn [fst snd]; intros [A B].
  - destruct (load_length _ A) as (m1 & ->). destruct (load_length _ B) as (m2 & ->). cbn [rbind]. eauto.
  - destruct (load_length _ A) as (m1 & ->). cbn [rbind]. eauto.
Qed.

(** ** Threads *)
Definition active (c : consumer) : Prop := match c with Getting | Yielding | Failed _ => True | _ => False end.
Definition grab_inv (src : list (res decoded)) (s : threads) : Prop :=
  exists given lost inq hand tail,
    src = map Ok (given ++ lost ++ inq ++ hand) ++ tail /\
    Forall2 (fun d m => load_frame d = Ok m) given (t_yielded s) /\
    match t_worker s with
    | Decoding => hand = [] /\ tail = t_source s /\ t_queue s = map Some inq /\ active (t_consumer s)
    | Putting (Some d) => hand = [d] /\ tail = t_source s /\ t_queue s = map Some inq /\ active (t_consumer s)
    | Putting None => hand = [] /\ tail = [] /\ t_source s = [] /\ t_queue s = map Some inq /\ active (t_consumer s)
    | Returned => hand = [] /\ tail = [] /\ t_source s = [] /\
        (t_queue s = map Some inq ++ [None] /\ active (t_consumer s) \/
         t_queue s = [] /\ inq = [] /\ (t_consumer s = Joining \/ t_consumer s = Finished))
    | Died e => hand = [] /\ tail = Raise e :: t_source s /\ t_queue s = map Some inq /\ active (t_consumer s)
    end /\
    match t_consumer s with Failed e => exists d, lost = [d] /\ load_frame d = Raise e | _ => lost = [] end /\
    (length (t_queue s) <= maxsize)%nat.

Lemma grab_init src : grab_inv src (threads_init src).
Proof.
  exists [], [], [], [], src. cbn. split; [reflexivity|]. split; [constructor|]. repeat split; auto. lia.
Qed.
Lemma map_some_inv (q : list entry) e inq : Some e :: q = map Some inq -> exists inq', inq = e :: inq' /\ q = map Some inq'.
Proof. destruct inq as [|x inq]; cbn; [discriminate|]. intros H. injection H as -> ->. eauto. Qed.
Lemma map_some_none (q : list entry) inq : None :: q <> map Some inq :> list (option decoded).
Proof. destruct inq; discriminate. Qed.

Lemma grab_step src s s' : grab_inv src s -> thread_step s s' -> grab_inv src s'.
Proof.
  intros (given & lost & inq & hand & tail & E & Y & W & C & L) H.
  destruct H as [d sr q c y|e sr q c y|q c y|sr e q c y K|sr w q y|sr w d q y m M|sr w d q y e M|sr w q y|sr w q y J]; cbn [t_source t_worker t_queue t_consumer t_yielded] in *.
  - destruct W as (-> & -> & -> & A). exists given, lost, inq, [d], sr. cbn. repeat split; auto.
    rewrite E. rewrite !map_app. cbn. rewrite <- !app_assoc. reflexivity.
  - destruct W as (-> & -> & -> & A). exists given, lost, inq, [], (Raise e :: sr). cbn. repeat split; auto.
  - destruct W as (-> & -> & -> & A). exists given, lost, inq, [], []. cbn. repeat split; auto.
  - destruct e as [d|].
    + destruct W as (-> & -> & -> & A). exists given, lost, (inq ++ [d]), [], sr. cbn. repeat split; auto.
      * rewrite E. rewrite app_nil_r. reflexivity.
      * rewrite map_app. reflexivity.
      * rewrite app_length. cbn. lia.
    + destruct W as (-> & -> & -> & -> & A). exists given, lost, inq, [], []. cbn. repeat split; auto.
      rewrite app_length. cbn. lia.
  - destruct w as [|[d|]| |e]; destruct W as (-> & W).
    1,2,5: destruct W as (_ & W & _); exfalso; exact (map_some_none _ _ W).
    1: destruct W as (_ & _ & W & _); exfalso; exact (map_some_none _ _ W).
    destruct W as (-> & -> & [[W A]|[W _]]); [|discriminate]. destruct inq as [|x inq]; [|discriminate]. cbn in W. injection W as ->.
    exists given, lost, [], [], []. cbn. repeat split; auto. apply Nat.le_0_l.
  - subst lost. destruct w as [|[d'|]| |e]; destruct W as (-> & W).
    1,2,5: destruct W as (-> & W & A); apply map_some_inv in W; destruct W as (inq' & -> & ->);
      (eexists (given ++ [d]), [], inq', _, _); cbn in *; (split; [rewrite E; rewrite <- !app_assoc; cbn; reflexivity|]); (split; [apply Forall2_app; auto|]); repeat split; auto; lia.
    1: destruct W as (-> & -> & W & A); apply map_some_inv in W; destruct W as (inq' & -> & ->);
      (eexists (given ++ [d]), [], inq', _, _); cbn in *; (split; [rewrite E; rewrite <- !app_assoc; cbn; reflexivity|]); (split; [apply Forall2_app; auto|]); repeat split; auto; lia.
    destruct W as (-> & -> & [[W A]|[W _]]); [|discriminate]. destruct inq as [|x inq']; [discriminate|]. cbn in W. injection W as -> ->.
    exists (given ++ [x]), [], inq', [], []. cbn in *. split; [rewrite E; rewrite <- !app_assoc; cbn; reflexivity|]. split; [apply Forall2_app; auto|]. repeat split; auto. lia.
  - subst lost. destruct w as [|[d'|]| |e']; destruct W as (-> & W).
    1,2,5: destruct W as (-> & W & A); apply map_some_inv in W; destruct W as (inq' & -> & ->);
      (eexists given, [d], inq', _, _); cbn in *; (split; [exact E|]); (split; [exact Y|]); repeat split; eauto; lia.
    1: destruct W as (-> & -> & W & A); apply map_some_inv in W; destruct W as (inq' & -> & ->);
      (eexists given, [d], inq', _, _); cbn in *; (split; [exact E|]); (split; [exact Y|]); repeat split; eauto; lia.
    destruct W as (-> & -> & [[W A]|[W _]]); [|discriminate]. destruct inq as [|x inq']; [discriminate|]. cbn in W. injection W as -> ->.
    exists given, [x], inq', [], []. cbn in *. split; [exact E|]. split; [exact Y|]. repeat split; eauto. lia.
  - exists given, lost, inq, hand, tail. cbn. split; [exact E|]. split; [exact Y|]. split; [|split; [exact C|exact L]].
    destruct w as [|[d'|]| |e']; cbn in *; try exact W. destruct W as (A & B & D & [[W1 W2]|[_ [_ [W|W]]]]); try discriminate. auto 6.
  - exists given, lost, inq, hand, tail. cbn. split; [exact E|]. split; [exact Y|]. split; [|split; [exact C|exact L]].
    destruct w as [|[d'|]| |e']; cbn in *; try contradiction.
    + destruct W as (A & B & D & [[W1 W2]|[W1 [W2 W3]]]); [contradiction|]. repeat split; auto.
    + destruct W as (_ & _ & _ & []).
Qed.
Lemma grab_run src n s : thread_run n (threads_init src) s -> grab_inv src s.
Proof.
  remember (threads_init src) as s0. intros H. induction H; subst; [apply grab_init|]. eapply grab_step; eauto.
Qed.

(** a bound on the number of steps left *)
Definition weight (s : threads) : nat :=
  4 * length (t_source s) + 2 * length (t_queue s) +
  match t_worker s with Decoding => 4 | Putting (Some _) => 7 | Putting None => 3 | _ => 0 end +
  match t_consumer s with Yielding | Joining => 1 | _ => 0 end.
Lemma weight_step s s' : thread_step s s' -> (weight s' < weight s)%nat.
Proof.
  intros H. destruct H as [d sr q c y|e sr q c y|q c y|sr e q c y K|sr w q y|sr w d q y m M|sr w d q y e M|sr w q y|sr w q y J];
    unfold weight; cbn [t_source t_worker t_queue t_consumer t_yielded length]; try lia.
  destruct e; rewrite app_length; cbn [length]; lia.
Qed.
Lemma weight_run n s0 s : thread_run n s0 s -> (n + weight s <= weight s0)%nat.
Proof. intros H. induction H as [|n s0 s1 s2 R IH T]; [lia|]. apply weight_step in T. lia. Qed.

Lemma forall2_firstn {A B} (P : A -> B -> Prop) l m : Forall2 P l m -> forall r, firstn (length m) (l ++ r) = l.
Proof. intros H. induction H; intros r; cbn; [reflexivity|]. rewrite IHForall2. reflexivity. Qed.
Lemma grab_prefix src s : grab_inv src s -> Forall2 frame_of (firstn (length (t_yielded s)) src) (t_yielded s).
Proof.
  intros (given & lost & inq & hand & tail & E & Y & _). rewrite E, map_app, <- app_assoc.
  assert (F : Forall2 frame_of (map Ok given) (t_yielded s)).
  { clear E. induction Y; cbn; constructor; auto. apply load_frame_of. assumption. }
  rewrite (forall2_firstn _ _ _ F). exact F.
Qed.
Lemma grab_finished src s : grab_inv src s -> t_consumer s = Finished -> Forall2 frame_of src (t_yielded s).
Proof.
  intros (given & lost & inq & hand & tail & E & Y & W & C & L) F. rewrite F in *. subst lost.
  destruct (t_worker s) as [|[d|]| |e]; cbn in W.
  1,2,5: destruct W as (_ & _ & _ & []).
  1: destruct W as (_ & _ & _ & _ & []).
  destruct W as (-> & -> & _ & [[_ []]|(_ & -> & _)]). rewrite E. cbn. rewrite !app_nil_r.
  clear - Y. induction Y; cbn [map]; constructor; auto. apply load_frame_of. assumption.
Qed.

(** [good] decoded frames, then perhaps a failure *)
Lemma stuck_cases src s : grab_inv src s -> stuck s ->
  t_consumer s = Finished \/ (exists e, t_consumer s = Failed e) \/
  (exists e, t_consumer s = Getting /\ t_worker s = Died e /\ t_queue s = []).
Proof.
  intros (given & lost & inq & hand & tail & E & Y & W & C & L) S.
  destruct s as [sr w q c y]. cbn in *.
  destruct c as [| | | |e].
  - destruct q as [|[d|] q].
    + right. right. destruct w as [|[d|]| |e].
      * exfalso. destruct sr as [|[d|e] sr]; [eapply S, w_end|eapply S, w_decode|eapply S, w_raise].
      * exfalso. eapply S, w_put. cbn. unfold maxsize. lia.
      * exfalso. eapply S, w_put. cbn. unfold maxsize. lia.
      * exfalso. destruct W as (_ & _ & _ & [[W _]|(_ & _ & [W|W])]); try discriminate. destruct inq; discriminate.
      * eauto.
    + exfalso. destruct (load_frame d) eqn:M; [eapply S, c_get; eauto|eapply S, c_get_raise; eauto].
    + exfalso. eapply S, c_get_end.
  - exfalso. eapply S, c_next.
  - exfalso. destruct w as [|[d|]| |e].
    1,2,5: destruct W as (_ & _ & _ & []).
    1: destruct W as (_ & _ & _ & _ & []).
    eapply S, c_join. exact I.
  - left. reflexivity.
  - right. left. eauto.
Qed.
Lemma grab_not_failed good tail src s : src = map Ok good ++ tail -> (forall d, In d good -> exists m, load_frame d = Ok m) ->
  (forall d, ~ In (Ok d) tail) -> grab_inv src s -> forall e, t_consumer s <> Failed e.
Proof.
  intros E G T (given & lost & inq & hand & tl & E' & Y & W & C & L) e F. rewrite F in C. destruct C as (d & -> & R).
  assert (I : In (Ok d) src) by (rewrite E'; apply in_or_app; left; apply in_map; apply in_or_app; right; left; reflexivity).
  rewrite E in I. apply in_app_or in I. destruct I as [I|I]; [|exact (T d I)].
  apply in_map_iff in I. destruct I as (d' & X & I). injection X as ->. destruct (G d I) as (m & M). congruence.
Qed.
Lemma grab_died good e0 rest src s e : src = map Ok good ++ Raise e0 :: rest -> grab_inv src s -> t_worker s = Died e ->
  t_queue s = [] -> t_consumer s = Getting -> e = e0 /\ Forall2 (fun d m => load_frame d = Ok m) good (t_yielded s).
Proof.
  intros E (given & lost & inq & hand & tl & E' & Y & W & C & L) D Q G. rewrite D, G in *. subst lost.
  destruct W as (-> & -> & W & _). rewrite Q in W. destruct inq; [|discriminate]. cbn in E'. rewrite !app_nil_r in E'.
  rewrite E in E'. clear - E' Y.
  assert (X : good = given /\ e = e0).
  { clear Y. revert given E'. induction good as [|x good IH]; intros [|x' given] E'; cbn in E'.
    - injection E' as -> _. auto.
    - discriminate.
    - discriminate.
    - injection E' as -> E'. destruct (IH _ E') as [-> ->]. auto. }
  destruct X as [-> ->]. auto.
Qed.

(** ** Frame cache *)
Lemma file_eqb_refl f : file_eqb f f = true.
Proof. destruct f; reflexivity. Qed.
Lemma run_app d a b : disk_run d (a ++ b) = disk_run (disk_run d a) b.
Proof. apply fold_left_app. Qed.
Definition touches (f : file) (op : disk_op) : bool := match op with Create g | Append g _ | Remove g => file_eqb f g end.
Lemma run_other f ops : forall d, forallb (fun op => negb (touches f op)) ops = true -> disk_run d ops f = d f.
Proof.
  induction ops as [|op ops IH]; intros d H; [reflexivity|]. cbn in H. apply andb_true_iff in H. destruct H as [H1 H2].
  cbn [disk_run fold_left]. fold (disk_run (disk_do d op) ops). rewrite IH by exact H2. destruct op; cbn in *; unfold disk_set; destruct (file_eqb f f0); [discriminate|reflexivity|discriminate|reflexivity|discriminate|reflexivity].
Qed.
Lemma run_append f chunks : forall d c, d f = Some c -> disk_run d (map (Append f) chunks) f = Some (c ++ concat chunks).
Proof.
  induction chunks as [|x chunks IH]; intros d c H; cbn [map disk_run fold_left concat]; [rewrite app_nil_r; exact H|].
  fold (disk_run (disk_do d (Append f x)) (map (Append f) chunks)). rewrite (IH _ (c ++ x)); [rewrite <- app_assoc; reflexivity|].
  cbn. unfold disk_set. rewrite file_eqb_refl, H. reflexivity.
Qed.
Lemma run_write f chunks d : disk_run d (write_ops f chunks) f = Some (concat chunks).
Proof.
  unfold write_ops. cbn [disk_run fold_left]. fold (disk_run (disk_do d (Create f)) (map (Append f) chunks)).
  apply (run_append f chunks _ []). cbn. unfold disk_set. rewrite file_eqb_refl. reflexivity.
Qed.
Lemma write_other f g chunks : file_eqb f g = false -> forallb (fun op => negb (touches f op)) (write_ops g chunks) = true.
Proof.
  intros H. unfold write_ops. cbn. rewrite H. cbn. induction chunks; cbn; [reflexivity|]. rewrite H. exact IHchunks.
Qed.
Lemma convert_result j d : read_back j (disk_run d (convert_ops j)) = Ok (j_result j).
Proof.
  assert (M : disk_run d (convert_ops j) MainFile = Some (concat (j_main j)) /\
    forall aux, j_aux j = Some aux -> disk_run d (convert_ops j) AuxFile = Some (concat aux)).
  { unfold convert_ops. rewrite !run_app. set (d0 := disk_run d _).
    split.
    - rewrite run_other by reflexivity. destruct (j_aux_first j); rewrite run_app.
      + apply run_write.
      + rewrite run_other; [apply run_write|]. destruct (j_aux j); [apply write_other; reflexivity|reflexivity].
    - intros aux E. rewrite E. rewrite run_other by reflexivity. destruct (j_aux_first j); rewrite run_app.
      + rewrite run_other; [apply run_write|]. apply write_other. reflexivity.
      + apply run_write. }
  destruct M as [M A]. unfold read_back, j_result. rewrite M. destruct (j_aux j) as [aux|]; [rewrite (A aux eq_refl)|]; reflexivity.
Qed.
Lemma decode_whole j d : whole_outputs d j -> decode j d = Ok (j_result j).
Proof.
  intros [M A]. unfold decode, decode_ops. destruct (cached j d) eqn:C; [|apply convert_result].
  cbn. unfold cached, read_back, j_result in *. destruct M as [M|M]; rewrite M in *; [discriminate|].
  destruct (j_aux j) as [aux|]; [|reflexivity]. destruct A as [A|A]; rewrite A in *; [discriminate|reflexivity].
Qed.
Lemma decode_stays j d : cached j d = true -> disk_run d (decode_ops j d) = d.
Proof. intros C. unfold decode_ops. rewrite C. reflexivity. Qed.
(** the file that is written last *)
Definition last_chunks (j : job) : list (list Z) :=
  match j_aux j with Some aux => if j_aux_first j then j_main j else aux | None => j_main j end.
Definition before_last (j : job) : list disk_op :=
  write_ops BmpFile (j_bmp j) ++
  match j_aux j with
  | Some aux => if j_aux_first j then write_ops AuxFile aux ++ [Create MainFile] else write_ops MainFile (j_main j) ++ [Create AuxFile]
  | None => [Create MainFile]
  end.
Lemma before_last_prefix j : exists n, firstn n (convert_ops j) = before_last j.
Proof.
  exists (length (before_last j)).
  assert (P : exists r, convert_ops j = before_last j ++ r).
  { unfold convert_ops, before_last. destruct (j_aux j) as [aux|]; [destruct (j_aux_first j)|destruct (j_aux_first j)].
    - exists (map (Append MainFile) (j_main j) ++ [Remove BmpFile]). unfold write_ops. cbn. rewrite <- !app_assoc. cbn. rewrite <- ?app_assoc. reflexivity.
    - exists (map (Append AuxFile) aux ++ [Remove BmpFile]). unfold write_ops. cbn. rewrite <- !app_assoc. cbn. rewrite <- ?app_assoc. reflexivity.
    - exists (map (Append MainFile) (j_main j) ++ [Remove BmpFile]). unfold write_ops. cbn. rewrite <- !app_assoc. cbn. reflexivity.
    - exists (map (Append MainFile) (j_main j) ++ [Remove BmpFile]). unfold write_ops. cbn. rewrite <- !app_assoc. cbn. reflexivity. }
  destruct P as (r & ->). rewrite firstn_app, Nat.sub_diag, firstn_all. cbn [firstn]. apply app_nil_r.
Qed.
Lemma before_last_read j d : exists dec, cached j (disk_run d (before_last j)) = true /\ read_back j (disk_run d (before_last j)) = Ok dec /\
  (concat (last_chunks j) <> [] -> dec <> j_result j) /\
  (length (concat (j_main j)) <> 0%nat -> exists e, load_frame dec = Raise e).
Proof.
  unfold before_last. rewrite run_app. set (d0 := disk_run d _). unfold cached, read_back, j_result, last_chunks.
  destruct (j_aux j) as [aux|]; [destruct (j_aux_first j)|].
  - rewrite run_app. cbn [disk_run fold_left disk_do]. unfold disk_set. cbn [file_eqb].
    fold (disk_run d0 (write_ops AuxFile aux)). rewrite run_write.
    exists ([], Some (concat aux)). split; [reflexivity|]. split; [reflexivity|]. split; [intros N E; injection E; auto|]. intros _. exists ValueError. reflexivity.
  - rewrite run_app. cbn [disk_run fold_left disk_do]. unfold disk_set. cbn [file_eqb].
    fold (disk_run d0 (write_ops MainFile (j_main j))). rewrite run_write.
    exists (concat (j_main j), Some []). split; [reflexivity|]. split; [reflexivity|]. split; [intros N E; injection E; auto|].
    intros _. unfold load_frame. cbn [fst snd]. destruct (load (concat (j_main j))) as [m|e]; cbn [rbind]; [exists ValueError|exists e]; reflexivity.
  - cbn [disk_run fold_left disk_do]. unfold disk_set. cbn [file_eqb]. exists ([], None).
    split; [reflexivity|]. split; [reflexivity|]. split; [intros N E; injection E; auto|]. intros _. exists ValueError. reflexivity.
Qed.

(** ** Names *)
Lemma split_from_app sep s r : forall f, split_from sep f (s ++ sep :: r) = split_from sep f s ++ split_on sep r.
Proof.
  induction s as [|c s IH]; intros f; cbn [app split_from].
  - rewrite Z.eqb_refl. reflexivity.
  - destruct (c =? sep); rewrite IH; reflexivity.
Qed.
Lemma split_stem stem ext : dotless ext -> split_on 46 (stem ++ 46 :: ext) = split_on 46 stem ++ [ext].
Proof.
  intros D. unfold split_on at 1. rewrite split_from_app. f_equal. apply split_on_single. exact D.
Qed.
Lemma split_nonempty sep s : forall f, split_from sep f s <> [].
Proof. induction s as [|c s IH]; intros f; cbn; [discriminate|]. destruct (c =? sep); [discriminate|apply IH]. Qed.
Lemma join_text_app sep a b : a <> [] -> b <> [] -> join_text sep (a ++ b) = join_text sep a ++ sep ++ join_text sep b.
Proof.
  induction a as [|x a IH]; intros NA NB; [contradiction|]. destruct a as [|y a].
  - destruct b as [|z b]; [contradiction|]. reflexivity.
  - change (join_text sep ((x :: y :: a) ++ b)) with (x ++ sep ++ join_text sep ((y :: a) ++ b)). rewrite IH by (discriminate || exact NB).
    change (join_text sep (x :: y :: a)) with (x ++ sep ++ join_text sep (y :: a)). rewrite <- !app_assoc. reflexivity.
Qed.
Lemma join_split sep s : forall f, join_text [sep] (split_from sep f s) = rev f ++ s.
Proof.
  induction s as [|c s IH]; intros f; cbn [split_from]; [cbn; rewrite rev_append_nil, app_nil_r; reflexivity|].
  destruct (Z.eqb_spec c sep) as [-> |N].
  - change (rev_append f [] :: split_from sep [] s) with ([rev_append f []] ++ split_from sep [] s).
    rewrite join_text_app by (discriminate || apply split_nonempty). rewrite IH. cbn. rewrite rev_append_nil. reflexivity.
  - rewrite IH. cbn [rev]. rewrite <- app_assoc. reflexivity.
Qed.
Lemma stem_of stem ext : dotless ext -> join_text (str ".") (removelast (split_on 46 (stem ++ 46 :: ext))) = stem.
Proof.
  intros D. rewrite split_stem by exact D. rewrite removelast_last. apply (join_split 46 stem []).
Qed.
Lemma output_dir_stem stem ext m p : dotless ext -> output_dir (stem ++ 46 :: ext) m p = stem ++ str "/" ++ mode_name m ++ str "/" ++ palette_name p.
Proof. intros D. unfold output_dir. rewrite stem_of by exact D. reflexivity. Qed.
Lemma out_filename_stem stem ext : dotless ext -> out_filename (stem ++ 46 :: ext) = stem ++ 46 :: str "a2m".
Proof.
  intros D. unfold out_filename. rewrite split_stem by exact D. rewrite removelast_last.
  rewrite join_text_app by (discriminate || apply split_nonempty). unfold split_on. change (str ".") with [46]. rewrite (join_split 46 stem []). reflexivity.
Qed.
(** every name has a stem and an extension or no dot *)
Lemma last_dot s : dotless s \/ exists stem ext, s = stem ++ 46 :: ext /\ dotless ext.
Proof.
  induction s as [|c s IH]; [left; intros []|]. destruct IH as [D|(stem & ext & -> & D)].
  - destruct (Z.eq_dec c 46) as [-> |N]; [right; exists [], s; auto|]. left. intros [X|X]; [auto|exact (D X)].
  - right. exists (c :: stem), ext. auto.
Qed.
Lemma out_filename_dotless s : dotless s -> out_filename s = str "a2m".
Proof. intros D. unfold out_filename. rewrite split_on_single by exact D. reflexivity. Qed.
Lemma dir_parts x m p x' m' p' :
  x ++ str "/" ++ mode_name m ++ str "/" ++ palette_name p = x' ++ str "/" ++ mode_name m' ++ str "/" ++ palette_name p' ->
  x = x' /\ m = m' /\ (p = p').
Proof.
  intros H. apply (f_equal (@rev Z)) in H.
  assert (R : forall x m p, rev (x ++ str "/" ++ mode_name m ++ str "/" ++ palette_name p) =
    rev (palette_name p) ++ 47 :: rev (mode_name m) ++ 47 :: rev x).
  { intros y n q. rewrite !rev_app_distr. change (rev (str "/")) with [47]. rewrite <- !app_assoc. reflexivity. }
  rewrite !R in H. destruct p, p'; cbn in H; try discriminate; destruct m, m'; cbn in H; try discriminate;
    injection H as H; apply (f_equal (@rev Z)) in H; rewrite !rev_involutive in H; auto.
Qed.
