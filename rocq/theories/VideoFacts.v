(** The encoder: whole frames and histories. *)
From Verif Require Import Base BaseFacts BitFacts ScreenModel ScreenSpec ScreenProofs BitmapModel DisplaySpec
  BitmapSpec BitmapProofs BitmapApply BitmapState BitmapFacts VideoModel VideoSpec HeapFacts VideoProofs VideoStep.
From Coq Require Import Permutation.
Opaque TABLES all_pairs.

Lemma other_bank a a' : a' <> a -> a' = negb a.
Proof. intros H. destruct a, a'; cbn; auto; destruct H; reflexivity. Qed.

Lemma vinv_mono k n m v : n <= m -> VInv k n v -> VInv k m v.
Proof.
  intros H [A B C D E F]. constructor; auto. intros a p o Hin. specialize (D a p o Hin). nia.
Qed.

Lemma vinv_new k : VInv k 0 (video_new k).
Proof.
  assert (Z0 : bytes_mem (mm_data zero_memory)) by (intros p o _ _; unfold is_byte; cbn; lia).
  assert (B : forall a p o, bank_data (v_pix (video_new k)) a p o = 0).
  { intros a p o. unfold video_new, bank_data. cbn [v_pix]. destruct k, a; reflexivity. }
  constructor.
  - cbn [video_new v_pix]. destruct k; [apply reach_hgr|apply reach_dhgr]; auto.
  - destruct k; reflexivity.
  - intros; apply B.
  - intros a p o _. destruct a; cbn; lia.
  - intros a p o _ _. destruct a; reflexivity.
  - intros _ a p o _. rewrite B. lia.
Qed.

Lemma start_distance_ok ed k t v0 a : u16_table k ed -> good_target k t -> good_bank k a ->
  exists dw0, diff_weights ed t (v_pix v0) a = Ok dw0 /\
   (fun p o => if hole p o then 0 else dw0 p o) = start_distance ed t (v_pix v0) a /\
   (forall p o, 0 <= start_distance ed t (v_pix v0) a p o < 65536).
Proof.
  intros HE (RT & KT & _) G.
  destruct (diff_weights_ok ed t (v_pix v0) a ltac:(rewrite KT; exact G)) as (f & E & S).
  exists f. split; [exact E|]. split.
  - unfold start_distance. rewrite E. reflexivity.
  - intros p o. unfold start_distance. rewrite E. destruct (hole p o); [lia|]. rewrite S, KT.
    pose proof (valid_bo k o a G). apply HE; auto using masked_bound.
Qed.

Lemma start_distance_hole ed t b a p o : hole p o = true -> start_distance ed t b a p o = 0.
Proof. intros H. unfold start_distance. rewrite H. reflexivity. Qed.

Lemma next_start ed rnd v t a f : diff_weights ed t (v_pix v) a = Ok f ->
  next ed rnd v (GStart t a) =
  (let! m := bank_mem (v_pix v) a in
   assert_ (holes_clear m) (
   assert_ (forallb (fun po => 0 <=? start_priority ed v t a (fst po) (snd po)) all_pairs) (
   let '(heap, n) := heapify_priorities (start_priority ed v t a) rnd in
   pop_loop (length heap) ed rnd n (set_up v a (start_priority ed v t a)) t a (start_distance ed t (v_pix v) a) heap))).
Proof. intros E. unfold start_priority, start_distance. cbn [next]. rewrite E. reflexivity. Qed.

Lemma assert_true {A} (x : res A) : assert_ true x = x.
Proof. reflexivity. Qed.

  (** counting outstanding bytes *)
  Definition outstanding (u : Z -> Z -> Z) : Z := count_bytes (fun p o => negb (u p o =? 0)).

  Lemma count_less {A} (f f' : A -> bool) l x : (forall y, In y l -> f' y = true -> f y = true) ->
    In x l -> f x = true -> f' x = false -> count f' l + 1 <= count f l.
  Proof.
    unfold count. induction l as [|y l IH]; intros H Hin Hx Hx'; [destruct Hin|].
    assert (LE : (length (filter f' l) <= length (filter f l))%nat).
    { assert (H' : forall y, In y l -> f' y = true -> f y = true) by (intros; apply H; [right; auto|auto]).
      clear - H'. induction l as [|z l IHl]; [cbn; lia|]. cbn [filter].
      assert (IH' : (length (filter f' l) <= length (filter f l))%nat) by (apply IHl; intros; apply H'; [right; auto|auto]).
      destruct (f' z) eqn:F'; [rewrite (H' z (or_introl eq_refl) F'); cbn [length]; lia|].
      destruct (f z); cbn [length]; lia. }
    cbn [filter]. destruct Hin as [->|Hin].
    - rewrite Hx, Hx'. cbn [length]. lia.
    - specialize (IH (fun y Hy => H y (or_intror Hy)) Hin Hx Hx').
      destruct (f' y) eqn:F'; [rewrite (H y (or_introl eq_refl) F'); cbn [length]; lia|].
      destruct (f y); cbn [length]; lia.
  Qed.

  Lemma outstanding_less (u u' : Z -> Z -> Z) p o : (forall p o, in_page p o -> u' p o <> 0 -> u p o <> 0) ->
    in_page p o -> u p o <> 0 -> u' p o = 0 -> outstanding u' + 1 <= outstanding u.
  Proof.
    intros H Hin Hu Hu'. unfold outstanding, count_bytes. apply (count_less _ _ _ (p, o)).
    - intros [p' o'] Hin' Hn. apply in_all_pairs in Hin'. cbn [fst snd] in *. specialize (H p' o' Hin'). lia.
    - apply in_all_pairs; auto.
    - cbn [fst snd]. lia.
    - cbn [fst snd]. lia.
  Qed.

  Lemma outstanding_nonneg u : 0 <= outstanding u.
  Proof. unfold outstanding, count_bytes, count. lia. Qed.

  (** storing at the padded list of offsets is storing at the distinct ones *)
  Lemma fold_upd (m : mem) page c l : forall p o,
    fold_left (fun m o => upd2 m page o c) l m p o =
    if (p =? page) && existsb (Z.eqb o) l then c else m p o.
  Proof.
    revert m. induction l as [|x l IH]; intros m p o; cbn [fold_left existsb].
    - rewrite andb_false_r. reflexivity.
    - rewrite IH. unfold upd2. destruct (Z.eqb_spec p page) as [->|]; cbn [andb]; [|reflexivity].
      destruct (Z.eqb_spec o x) as [->|]; cbn [orb]; [|reflexivity].
      destruct (existsb (Z.eqb x) l); reflexivity.
  Qed.

  Lemma store4_pad4 (m m' : mem) page c offset new : (forall p o, m p o = m' p o) ->
    forall p o, store4 m (page + 32, c, pad4 (offset :: new)) p o =
    fold_left (fun m o => upd2 m page o c) (offset :: new) m' p o.
  Proof.
    intros H p o. unfold store4. replace (page + 32 - 32) with page by lia. rewrite !fold_upd, H.
    assert (EX : existsb (Z.eqb o) (pad4 (offset :: new)) = existsb (Z.eqb o) (offset :: new)).
    { unfold pad4. rewrite existsb_app. cbn [nth]. destruct (existsb (Z.eqb o) (repeat offset _)) eqn:X.
      - apply existsb_exists in X. destruct X as (y & Hy & Ey). apply repeat_spec in Hy. subst y.
        cbn [existsb]. rewrite Ey. reflexivity.
      - apply orb_false_r. }
    rewrite EX. reflexivity.
  Qed.

  Lemma replay_app m l c : replay m (l ++ [c]) = store4 (replay m l) c.
  Proof. unfold replay. rewrite fold_left_app. reflexivity. Qed.

Section Frame.
  Variables (ed : table) (k : kind) (n : Z) (v0 : video) (t : bitmap) (a : bool).
  Hypothesis HE : u16_table k ed.
  Hypothesis HT : good_target k t.
  Hypothesis HG : good_bank k a.
  Hypothesis HV : VInv k n v0.
  Hypothesis HN : 0 <= n.
  Let U := start_priority ed v0 t a.
  Let D := start_distance ed t (v_pix v0) a.
  Let R := RInv ed k (n + 1) v0 t a U D.

  Lemma tok : TOk ed k (n + 1) t a U D.
  Proof. constructor; auto; [lia|]. intros p o H. apply start_distance_hole; auto. Qed.

  Lemma start_bounds p o : in_page p o -> 0 <= D p o < 65536 /\ D p o <= U p o <= (n + 1) * 65535 /\
     (D p o = 0 -> U p o = 0).
  Proof.
    intros Hin. destruct (start_distance_ok ed k t v0 a HE HT HG) as (dw0 & _ & _ & B).
    specialize (B p o). fold D in B. pose proof (vi_up _ _ _ HV a p o Hin) as HU.
    unfold U, start_priority. fold D. destruct (Z.eqb_spec (D p o) 0); lia.
  Qed.

  Definition vs (v : video) (g : gen) : video := match g with GStart _ _ => set_up v a U | _ => v end.

  Lemma start_inv rnd m h : heapify_priorities U rnd = (h, m) -> R (set_up v0 a U) D h.
  Proof.
    intros EH. unfold heapify_priorities in EH. apply heapify_in in EH. destruct EH as [H1 H2].
    assert (UH : forall p o, hole p o = true -> U p o = 0).
    { intros p o Hh. unfold U, start_priority. rewrite start_distance_hole by auto. reflexivity. }
    constructor.
    - pose proof HV as [A B C E F G]. constructor.
      + rewrite pix_set_up. auto.
      + unfold v_mode. rewrite pix_set_up. auto.
      + rewrite pix_set_up. auto.
      + intros a' p o Hin. destruct (Bool.bool_dec a' a) as [->|NE].
        * rewrite get_set_up. pose proof (start_bounds p o Hin). lia.
        * rewrite (other_bank a a' NE). rewrite get_set_up_other.
          specialize (E (negb a) p o Hin). nia.
      + intros a' p o Hin Hh. destruct (Bool.bool_dec a' a) as [->|NE].
        * rewrite get_set_up. auto.
        * rewrite (other_bank a a' NE). rewrite get_set_up_other. auto.
      + rewrite pix_set_up. auto.
    - rewrite pix_set_up. reflexivity.
    - apply get_set_up_other.
    - apply oow_set_up.
    - auto.
    - intros p o Hin. rewrite get_set_up. pose proof (start_bounds p o Hin) as (B1 & B2 & B3). intros Hne.
      split; [|lia]. destruct (Z.eq_dec (D p o) 0) as [Z0|]; [specialize (B3 Z0); lia|lia].
    - apply Forall_forall. intros e He. destruct (H1 e He) as (I1 & I2 & I3).
      apply in_all_pairs in I1. split; [exact I1|]. split.
      + destruct (hole (en_page e) (en_off e)) eqn:Hh; auto. rewrite UH in I2 by auto. lia.
      + left. split; [exact I3|]. pose proof (start_bounds _ _ I1) as (B1 & B2 & _). lia.
    - intros p o Hin. rewrite get_set_up. intros Hne. destruct (H2 p o) as (e & He & Q).
      + apply in_all_pairs; auto.
      + auto.
      + exists e; auto.
    - intros p o Hin Hh. rewrite get_set_up. intros U0. right. left. rewrite pix_set_up. split; [|reflexivity].
      pose proof (start_bounds p o Hin). lia.
  Qed.

  Lemma start_step rnd : exists c v' g', next ed rnd v0 (GStart t a) = Ok (c, v', g') /\
    (work_step ed k (n + 1) v0 t a U D (set_up v0 a U) c v' g' \/ pad_step t a (set_up v0 a U) c v' g').
  Proof.
    destruct (start_distance_ok ed k t v0 a HE HT HG) as (dw0 & E & EQ & B).
    rewrite (next_start ed rnd v0 t a dw0 E). fold U D.
    pose proof (vi_kind _ _ _ HV) as KV. unfold v_mode in KV.
    rewrite bank_mem_data; [|apply reachable_ok; apply (vi_reach _ _ _ HV)|rewrite KV; exact HG].
    unfold rbind.
    assert (HC : holes_clear (bank_data (v_pix v0) a) = true).
    { unfold holes_clear. apply forallb_forall. intros [p o] Hin. apply in_all_pairs in Hin. cbn [fst snd].
      destruct (hole p o) eqn:Hh; [|reflexivity]. rewrite (vi_hole _ _ _ HV) by auto. reflexivity. }
    rewrite HC, assert_true. clear HC.
    assert (NN : forallb (fun po => 0 <=? U (fst po) (snd po)) all_pairs = true).
    { apply forallb_forall. intros [p o] Hin. apply in_all_pairs in Hin. cbn [fst snd].
      pose proof (start_bounds p o Hin). lia. }
    rewrite NN, assert_true. clear NN.
    destruct (heapify_priorities U rnd) as [h m] eqn:EH.
    destruct (pop_ok ed k (n + 1) v0 t a U D tok rnd (length h) m (set_up v0 a U) D h (le_n _) (start_inv rnd m h EH)) as (c & v' & g' & E1 & S).
    exists c, v', g'. split; [exact E1|exact S].
  Qed.

  Definition settled (v : video) : Prop := forall p o, in_page p o -> hole p o = false ->
     bank_data (v_pix v) a p o = bank_data t a p o \/
     (D p o = 0 /\ bank_data (v_pix v) a p o = bank_data (v_pix v0) a p o) \/
     what_if_distance ed t a p o (bank_data (v_pix v) a p o) = 0.

  Inductive FState (l : list change) (v : video) : gen -> Prop :=
  | FS_start : l = [] -> v = v0 -> FState l v (GStart t a)
  | FS_run dw heap : R v dw heap ->
      (forall p o, bank_data (v_pix v) a p o = replay (bank_data (v_pix v0) a) l p o) ->
      Z.of_nat (length l) + outstanding (get_up v a) <= outstanding U ->
      FState l v (GRun t a dw heap)
  | FS_pad work j : l = work ++ repeat (pad_change t a) (S j) ->
      VInv k (n + 1) v ->
      bank_data (v_pix v) (negb a) = bank_data (v_pix v0) (negb a) ->
      get_up v (negb a) = get_up v0 (negb a) ->
      (forall b, v_oow v b = if Bool.eqb b a then true else v_oow v0 b) ->
      (forall p o, bank_data (v_pix v) a p o = replay (bank_data (v_pix v0) a) work p o) ->
      Z.of_nat (length work) <= outstanding U ->
      (forall p o, in_page p o -> get_up v a p o = 0) -> settled v ->
      FState l v (GPad (bank_data t a 0 0)).

  Lemma fstate_vs l v g : FState l v g -> (forall c, g <> GPad c) ->
    (forall p o, bank_data (v_pix (vs v g)) a p o = replay (bank_data (v_pix v0) a) l p o) /\
    Z.of_nat (length l) + outstanding (get_up (vs v g) a) <= outstanding U.
  Proof.
    intros F NP. destruct F as [-> -> | | ]; cbn [vs].
    - rewrite pix_set_up, get_set_up. split; [reflexivity|cbn; lia].
    - auto.
    - destruct (NP _ eq_refl).
  Qed.

  Lemma run_settled v dw heap : R v dw heap -> (forall p o, in_page p o -> get_up v a p o = 0) -> settled v.
  Proof. intros I Z0 p o Hin Hh. apply (ri_settled _ _ _ _ _ _ _ _ _ _ _ I p o Hin Hh (Z0 p o Hin)). Qed.

  Definition idle_step (v : video) (g : gen) (c : change) (v' : video) (g' : gen) : Prop :=
    g = GPad (bank_data t a 0 0) /\ c = pad_change t a /\ v' = v /\ g' = g.

  Lemma pad_fstate l vw c v' g' : pad_step t a vw c v' g' -> (exists dw heap, R vw dw heap) ->
    (forall p o, bank_data (v_pix vw) a p o = replay (bank_data (v_pix v0) a) l p o) ->
    Z.of_nat (length l) + outstanding (get_up vw a) <= outstanding U ->
    FState (l ++ [c]) v' g'.
  Proof.
    intros [P1 P2 P3 P4] (dw & heap & I) B L. subst c g' v'.
    pose proof I as [[A1 A2 A3 A4 A5 A6] I2 I3 I4 _ _ _ _ _].
    apply FS_pad with (work := l) (j := O); auto.
    - constructor; auto.
    - intros b. cbn [set_oow v_oow]. rewrite I4. reflexivity.
    - pose proof (outstanding_nonneg (get_up vw a)). lia.
    - apply (run_settled _ _ _ I P4).
  Qed.

  Lemma step_fstate l v g : FState l v g -> forall rnd,
    exists c v' g', next ed rnd v g = Ok (c, v', g') /\ FState (l ++ [c]) v' g' /\
     (work_step ed k (n + 1) v0 t a U D (vs v g) c v' g' \/ pad_step t a (vs v g) c v' g' \/ idle_step v g c v' g').
  Proof.
    intros F rnd.
    assert (WK : forall w c v' g', (forall p o, bank_data (v_pix w) a p o = replay (bank_data (v_pix v0) a) l p o) ->
       Z.of_nat (length l) + outstanding (get_up w a) <= outstanding U ->
       work_step ed k (n + 1) v0 t a U D w c v' g' -> FState (l ++ [c]) v' g').
    { intros w c v' g' B L [(page & offset & new & dw' & heap' & E1 & E2 & I & Hin & Hh & N0 & Z0 & _ & M & BB & _)].
      subst g' c. constructor.
      - exact I.
      - intros p o. rewrite BB, replay_app. symmetry. apply store4_pad4. intros; symmetry; apply B.
      - rewrite app_length. cbn [length]. pose proof (outstanding_less _ _ page offset M Hin N0 Z0). lia. }
    destruct F as [-> -> | dw heap I B L | work j E VI O1 O2 O3 B L Z0 S].
    - destruct (start_step rnd) as (c & v' & g' & E & S). exists c, v', g'. split; [exact E|]. cbn [vs].
      destruct (fstate_vs [] v0 (GStart t a) (FS_start [] v0 eq_refl eq_refl) ltac:(discriminate)) as [B L]. cbn [vs] in B, L.
      split; [|destruct S; auto].
      destruct S as [S|S].
      + eapply WK; eauto.
      + eapply pad_fstate; eauto. destruct (heapify_priorities U rnd) as [h m] eqn:EH.
        exists D, h. eapply start_inv; eauto.
    - destruct (pop_ok ed k (n + 1) v0 t a U D tok rnd (length heap) 0 v dw heap (le_n _) I) as (c & v' & g' & E & S).
      exists c, v', g'. split; [exact E|]. cbn [vs]. split; [|destruct S; auto]. destruct S as [S|S].
      + eapply WK; eauto.
      + eapply pad_fstate; eauto.
    - exists (pad_change t a), v, (GPad (bank_data t a 0 0)). split; [reflexivity|]. split.
      + apply FS_pad with (work := work) (j := Datatypes.S j); auto. rewrite E, <- app_assoc. f_equal.
        rewrite <- repeat_cons. reflexivity.
      + right. right. repeat split.
  Qed.

  Lemma run_fstate l v g : frame_run ed v0 t a l v g -> FState l v g.
  Proof.
    intros F. induction F as [|l v g rnd c v' g' F IH E].
    - constructor; reflexivity.
    - destruct (step_fstate l v g IH rnd) as (c1 & v1 & g1 & E1 & FS & _).
      rewrite E in E1. injection E1 as <- <- <-. exact FS.
  Qed.

  Lemma fstate_vinv l v g : FState l v g -> VInv k (n + 1) v.
  Proof.
    intros [-> -> | dw heap I _ _ | work j _ VI _ _ _ _ _ _ _]; auto.
    - eapply vinv_mono; [|exact HV]. lia.
    - apply (ri_v _ _ _ _ _ _ _ _ _ _ _ I).
  Qed.

  Lemma fstate_other l v g : FState l v g ->
    bank_data (v_pix v) (negb a) = bank_data (v_pix v0) (negb a) /\ get_up v (negb a) = get_up v0 (negb a).
  Proof.
    intros [-> -> | dw heap I _ _ | work j _ VI O1 O2 _ _ _ _ _]; auto. split; apply I.
  Qed.
End Frame.

Lemma vinv_reset k n v : VInv k n v -> VInv k n (reset_oow v).
Proof. intros [A B C D E F]. constructor; auto. Qed.

Lemma encoder_vinv ed k n v : u16_table k ed -> encoder ed k n v -> VInv k n v /\ 0 <= n.
Proof.
  intros HE H. induction H as [|n v0 t a l v g H IH HT HG F|n v H IH].
  3:{ destruct IH. split; [apply vinv_reset|]; auto. }
  - split; [apply vinv_new|lia].
  - destruct IH as [IH HN]. split; [|lia].
    eapply fstate_vinv; eauto. eapply run_fstate; eauto.
Qed.
