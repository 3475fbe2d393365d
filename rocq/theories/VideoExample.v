(** Concrete encoder runs used by the examples and refutations of PropVideo. *)
From Verif Require Import Base BaseFacts ScreenModel ScreenSpec ScreenProofs BitmapModel ColourModel DisplaySpec BitmapSpec
  BitmapProofs BitmapApply BitmapState BitmapFacts TableModel TableSpec TableProofs TableFacts
  VideoModel VideoSpec VideoProofs VideoStep VideoFacts VideoThms VideoDisplay.

Opaque TABLES all_pairs.

(** a table that looks at the byte's own bits only *)
Definition wt (x y : Z) : Z :=
  if x =? y then 0 else
  match x, y with
  | 0, 1 | 1, 0 => 100 | 0, 2 | 2, 0 => 90 | 0, 3 | 3, 0 => 50 | 1, 2 | 2, 1 => 10 | _, _ => 1000
  end.
Definition ed_ex : table := fun o i =>
  if o =? 0 then wt ((i / 2 ^ 14 / 8) mod 256) ((i / 8) mod 256) else 0.
Definition frame_ex : memory_map := {| mm_page := 1; mm_data := fun p o =>
  if p =? 0 then (if o =? 0 then 1 else if o =? 2 then 2 else if o =? 4 then 3 else 0)
  else if p =? 1 then (if (o =? 10) || (o =? 20) || (o =? 30) || (o =? 40) then 3 else 0) else 0 |}.
Definition t_ex : bitmap := hgr_new frame_ex.
Definition zeros : Z -> Z := fun _ => 0.

Lemma wt_u16 x y : 0 <= wt x y < 65536.
Proof.
  unfold wt. destruct (x =? y); [lia|].
  destruct x as [|[[?|?|]|[?|?|]|]|?], y as [|[[?|?|]|[?|?|]|]|?]; lia.
Qed.
Lemma ex_u16 : u16_table HGR ed_ex.
Proof. intros o x y _ _ _. unfold ed_ex. destruct (o =? 0); [apply wt_u16|lia]. Qed.
Lemma ex_target : good_target HGR t_ex.
Proof.
  split; [apply reach_hgr; [reflexivity|]|split; [reflexivity|discriminate]].
  intros p o _ _. unfold is_byte. cbn [mm_data frame_ex].
  destruct (p =? 0); [destruct (o =? 0), (o =? 2), (o =? 4); lia|].
  destruct (p =? 1), ((o =? 10) || (o =? 20) || (o =? 30) || (o =? 40)); lia.
Qed.
Lemma ex_bank : good_bank HGR false.
Proof. right. reflexivity. Qed.

Definition step_ex (vg : video * gen) : res (change * video * gen) := next ed_ex zeros (fst vg) (snd vg).
Definition state_of (r : res (change * video * gen)) : video * gen :=
  match r with Ok (_, v, g) => (v, g) | Raise _ => (video_new HGR, GPad 0) end.
Definition change_of (r : res (change * video * gen)) : change :=
  match r with Ok (c, _, _) => c | Raise _ => (0, 0, []) end.
Definition s0 : video * gen := (video_new HGR, GStart t_ex false).
Definition r1 := step_ex s0.
Definition s1 := state_of r1.
Definition r2 := step_ex s1.
Definition s2 := state_of r2.
Definition r3 := step_ex s2.
Definition s3 := state_of r3.
Definition r4 := step_ex s3.
Definition s4 := state_of r4.
Definition r5 := step_ex s4.
Definition s5 := state_of r5.
Definition r6 := step_ex s5.
Definition s6 := state_of r6.

Lemma next_of vg l : frame_run ed_ex (video_new HGR) t_ex false l (fst vg) (snd vg) ->
  next ed_ex zeros (fst vg) (snd vg) = Ok (change_of (step_ex vg), fst (state_of (step_ex vg)), snd (state_of (step_ex vg))).
Proof.
  intros F. destruct (never_raises ed_ex HGR 0 (video_new HGR) t_ex false l (fst vg) (snd vg) ex_u16 (enc_new _ _) ex_target ex_bank F zeros)
    as (c & v & g & E). unfold step_ex. rewrite E. reflexivity.
Qed.
Lemma run_of vg l : frame_run ed_ex (video_new HGR) t_ex false l (fst vg) (snd vg) ->
  frame_run ed_ex (video_new HGR) t_ex false (l ++ [change_of (step_ex vg)]) (fst (state_of (step_ex vg))) (snd (state_of (step_ex vg))).
Proof. intros F. eapply fr_next; [exact F|]. apply next_of with (l := l). exact F. Qed.

Lemma run0 : frame_run ed_ex (video_new HGR) t_ex false [] (fst s0) (snd s0).
Proof. constructor. Qed.
Definition l0 : list change := [].
Definition l1 := l0 ++ [change_of r1].
Definition l2 := l1 ++ [change_of r2].
Definition l3 := l2 ++ [change_of r3].
Definition l4 := l3 ++ [change_of r4].
Definition l5 := l4 ++ [change_of r5].
Definition l6 := l5 ++ [change_of r6].
Lemma run1 : frame_run ed_ex (video_new HGR) t_ex false l1 (fst s1) (snd s1).
Proof. exact (run_of s0 l0 run0). Qed.
Lemma run2 : frame_run ed_ex (video_new HGR) t_ex false l2 (fst s2) (snd s2).
Proof. exact (run_of s1 l1 run1). Qed.
Lemma run3 : frame_run ed_ex (video_new HGR) t_ex false l3 (fst s3) (snd s3).
Proof. exact (run_of s2 l2 run2). Qed.
Lemma run4 : frame_run ed_ex (video_new HGR) t_ex false l4 (fst s4) (snd s4).
Proof. exact (run_of s3 l3 run3). Qed.
Lemma run5 : frame_run ed_ex (video_new HGR) t_ex false l5 (fst s5) (snd s5).
Proof. exact (run_of s4 l4 run4). Qed.
Lemma run6 : frame_run ed_ex (video_new HGR) t_ex false l6 (fst s6) (snd s6).
Proof. exact (run_of s5 l5 run5). Qed.
Lemma next1 : next ed_ex zeros (fst s0) (snd s0) = Ok (change_of r1, fst s1, snd s1).
Proof. exact (next_of s0 l0 run0). Qed.
Lemma next2 : next ed_ex zeros (fst s1) (snd s1) = Ok (change_of r2, fst s2, snd s2).
Proof. exact (next_of s1 l1 run1). Qed.
Lemma next3 : next ed_ex zeros (fst s2) (snd s2) = Ok (change_of r3, fst s3, snd s3).
Proof. exact (next_of s2 l2 run2). Qed.
Lemma next4 : next ed_ex zeros (fst s3) (snd s3) = Ok (change_of r4, fst s4, snd s4).
Proof. exact (next_of s3 l3 run3). Qed.
Lemma next5 : next ed_ex zeros (fst s4) (snd s4) = Ok (change_of r5, fst s5, snd s5).
Proof. exact (next_of s4 l4 run4). Qed.
Lemma next6 : next ed_ex zeros (fst s5) (snd s5) = Ok (change_of r6, fst s6, snd s6).
Proof. exact (next_of s5 l5 run5). Qed.

(** ** Evaluating the run
    The same steps without the assertions and with the first frame's weights in
    closed form: equal results ([sim_step], [sim_start]), cheap to evaluate in
    the kernel. *)
Fixpoint fill_f (ed : table) (target : bitmap) (page offset content : Z)
    (rnd : Z -> Z) (n : Z) (cands : list entry)
    (v : video) (heap : list entry) (offsets : list Z) : res (video * list entry * list Z) :=
  match cands with
  | [] => Ok (v, heap, offsets)
  | c :: rest =>
      let o := en_off c in
      if get_up v false page o =? 0 then
        fill_f ed target page offset content rnd n rest v heap offsets
      else
        let! bo := byte_offset (bm_kind target) o false in
        let! p := byte_pair_difference (bm_kind target) ed bo (bm_packed target page (o / 2)) content in
        let v1 := set_up v false (upd2 (get_up v false) page o p) in
        let! pix := apply (v_pix v1) page o false content in
        let v2 := set_pix v1 pix in
        let heap' := if p =? 0 then heap else
          heap_push heap {| en_key := u16_neg p; en_nonce := rnd n; en_page := page; en_off := o |} in
        let offsets' := offsets ++ [o] in
        if Z.of_nat (length offsets') =? 3 then Ok (v2, heap', offsets')
        else fill_f ed target page offset content rnd (n + 1) rest v2 heap' offsets'
  end.
Fixpoint pop_f (fuel : nat) (ed : table) (rnd : Z -> Z) (n : Z) (v : video) (target : bitmap)
    (dw : Z -> Z -> Z) (heap : list entry) : res (change * video * gen) :=
  match heap_pop heap with
  | None => let content := mm_data (bm_main target) 0 0 in
      Ok ((32, content, [0; 0; 0; 0]), v, GPad content)
  | Some (e, heap1) =>
      match fuel with
      | O => Raise OutOfFuel
      | S fuel' =>
          let page := en_page e in
          let offset := en_off e in
          if get_up v false page offset =? 0 then pop_f fuel' ed rnd n v target dw heap1
          else
            let content := mm_data (bm_main target) page offset in
            let v1 := set_up v false (upd2 (get_up v false) page offset 0) in
            let dw1 := upd2 dw page offset 0 in
            let! pix := apply (v_pix v1) page offset false content in
            let v2 := set_pix v1 pix in
            let! (cands, n1) := compute_error ed target page content dw1 false rnd n in
            let! (v3, heap2, offsets) := fill_f ed target page offset content rnd n1 cands v2 heap1 [offset] in
            Ok ((page + 32, content, pad4 offsets), v3, GRun target false dw1 heap2)
      end
  end.

Definition page_eq (f f' : Z -> Z -> Z) : Prop := forall p o, in_page p o -> f p o = f' p o.
Definition vsim (v v' : video) : Prop := v_pix v = v_pix v' /\ page_eq (v_up v) (v_up v').
Definition heap_in (h : list entry) : Prop := Forall (fun e => in_page (en_page e) (en_off e)) h.
Definition gsim (g g' : gen) : Prop :=
  match g, g' with
  | GPad c, GPad c' => c = c'
  | GRun t a dw h, GRun t' a' dw' h' => t = t' /\ a = false /\ a' = false /\ h = h' /\ heap_in h /\ page_eq dw dw'
  | _, _ => False
  end.

Lemma page_eq_upd f f' p o x : page_eq f f' -> page_eq (upd2 f p o x) (upd2 f' p o x).
Proof. intros H a b Hab. unfold upd2. destruct ((a =? p) && (b =? o)); auto. Qed.

Lemma heap_pop_in h e h' : heap_pop h = Some (e, h') -> heap_in h -> in_page (en_page e) (en_off e) /\ heap_in h'.
Proof.
  revert e h'. induction h as [|x h IH]; intros e h' H Hh; [discriminate|]. cbn [heap_pop] in H.
  inversion Hh as [|? ? Hx Hh' E]. subst.
  destruct (heap_pop h) as [[m r]|] eqn:P.
  - destruct (IH m r eq_refl Hh') as [A B].
    destruct (entry_lt m x); injection H as <- <-; split; auto. constructor; auto.
  - injection H as <- <-. split; [auto|constructor].
Qed.
Lemma pop_all_in n h : heap_in h -> heap_in (pop_all n h).
Proof.
  revert h. induction n as [|n IH]; intros h H; [constructor|]. cbn [pop_all].
  destruct (heap_pop h) as [[e h']|] eqn:P; [|constructor].
  destruct (heap_pop_in _ _ _ P H). constructor; auto. apply IH. auto.
Qed.
Lemma candidates_ext delta delta' rnd l : (forall o, In o l -> delta o = delta' o) ->
  forall n, error_candidates delta rnd n l = error_candidates delta' rnd n l.
Proof.
  induction l as [|o l IH]; intros H n; [reflexivity|]. cbn [error_candidates].
  rewrite <- (H o (or_introl eq_refl)). rewrite !IH by (intros; apply H; right; auto). reflexivity.
Qed.
Lemma candidates_in delta rnd l : (forall o, In o l -> 0 <= o < 256) ->
  forall n h m, error_candidates delta rnd n l = (h, m) -> heap_in h.
Proof.
  induction l as [|o l IH]; intros H n h m E; cbn [error_candidates] in E; [injection E as <- <-; constructor|].
  destruct (delta o <? 0).
  - destruct (error_candidates delta rnd (n + 1) l) as [h' m'] eqn:E'. injection E as <- <-.
    constructor; [|apply (IH (fun x Hx => H x (or_intror Hx)) _ _ _ E')].
    cbn [en_page en_off]. split; [lia|]. apply H. left. reflexivity.
  - apply (IH (fun x Hx => H x (or_intror Hx)) _ _ _ E).
Qed.
Lemma compute_error_ext ed t page c dw dw' rnd n : 0 <= page < 32 -> page_eq dw dw' ->
  compute_error ed t page c dw false rnd n = compute_error ed t page c dw' false rnd n.
Proof.
  intros Hp H. unfold compute_error, compute_delta_page.
  destruct (diff_weights_page (bm_kind t) ed (bm_packed t page) (bm_packed t page) false (Some c)) as [nd|]; [|reflexivity].
  cbn [rbind]. rewrite (candidates_ext (fun off => nd off - dw page off) (fun off => nd off - dw' page off)); [reflexivity|].
  intros o Ho. apply in_zrange in Ho; [|lia]. rewrite H; [reflexivity|]. split; lia.
Qed.
Lemma compute_error_in ed t page c dw rnd n l m : compute_error ed t page c dw false rnd n = Ok (l, m) -> heap_in l.
Proof.
  unfold compute_error, compute_delta_page.
  destruct (diff_weights_page (bm_kind t) ed (bm_packed t page) (bm_packed t page) false (Some c)) as [nd|]; [|discriminate].
  cbn [rbind]. destruct (error_candidates _ rnd n (zrange 256)) as [h m'] eqn:E. intros H.
  assert (heap_in h). { eapply candidates_in; [|exact E]. intros o Ho. apply in_zrange in Ho; [|lia]. lia. }
  injection H as <- <-. apply pop_all_in. auto.
Qed.

Lemma assert_ok {A} b (k : res A) x : assert_ b k = Ok x -> k = Ok x.
Proof. destruct b; [auto|discriminate]. Qed.

Lemma fill_sim ed t page offset c rnd : 0 <= page < 32 -> forall cands n v v' heap offs w h l,
  vsim v v' -> heap_in cands -> heap_in heap ->
  fill_slots ed t false page offset c rnd n cands v heap offs = Ok (w, h, l) ->
  exists w', fill_f ed t page offset c rnd n cands v' heap offs = Ok (w', h, l) /\ vsim w w' /\ heap_in h.
Proof.
  intros Hp. induction cands as [|e rest IH]; intros n v v' heap offs w h l S HC HH E.
  - cbn [fill_slots] in E. injection E as <- <- <-. exists v'. auto.
  - inversion HC as [|? ? [_ Ho] HC']. subst. cbn [fill_slots] in E.
    apply assert_ok, assert_ok, assert_ok in E. cbn [fill_f]. cbn [get_up] in *.
    destruct S as [S1 S2]. rewrite <- (S2 page (en_off e)) by (split; auto).
    destruct (v_up v page (en_off e) =? 0); [eapply IH; eauto; split; auto|].
    destruct (byte_offset (bm_kind t) (en_off e) false) as [bo|]; [|discriminate]. cbn [rbind] in *.
    destruct (byte_pair_difference (bm_kind t) ed bo (bm_packed t page (en_off e / 2)) c) as [p|]; [|discriminate]. cbn [rbind] in *.
    cbn [set_up v_pix] in *. rewrite <- S1.
    destruct (apply (v_pix v) page (en_off e) false c) as [pix|]; [|discriminate]. cbn [rbind] in *.
    assert (VS : vsim (set_pix (set_up v false (upd2 (v_up v) page (en_off e) p)) pix)
                      (set_pix (set_up v' false (upd2 (v_up v') page (en_off e) p)) pix)).
    { split; [reflexivity|]. cbn. apply page_eq_upd. auto. }
    assert (HH' : heap_in (if p =? 0 then heap else
          heap_push heap {| en_key := u16_neg p; en_nonce := rnd n; en_page := page; en_off := en_off e |})).
    { destruct (p =? 0); auto. constructor; [|auto]. split; auto. }
    destruct (Z.of_nat (length (offs ++ [en_off e])) =? 3).
    + injection E as <- <- <-. eexists. split; [reflexivity|]. split; auto.
    + eapply IH; eauto.
Qed.

Lemma pop_sim ed t rnd : bm_kind t = HGR -> forall fuel n v v' dw dw' heap c w g,
  v_mode v = HGR -> vsim v v' -> page_eq dw dw' -> heap_in heap ->
  pop_loop fuel ed rnd n v t false dw heap = Ok (c, w, g) ->
  exists w' g', pop_f fuel ed rnd n v' t dw' heap = Ok (c, w', g') /\ vsim w w' /\ gsim g g'.
Proof.
  intros KT. induction fuel as [|fuel IH]; intros n v v' dw dw' heap c w g M S HD HH E.
  - cbn [pop_loop] in E. rewrite M in E. cbn [bank_mem rbind] in E. cbn [pop_f].
    destruct (heap_pop heap) as [[e h1]|]; [discriminate|]. injection E as <- <- <-.
    eexists _, _. split; [reflexivity|]. split; [exact S|reflexivity].
  - cbn [pop_loop] in E. rewrite M in E. cbn [bank_mem rbind] in E. cbn [pop_f].
    destruct (heap_pop heap) as [[e h1]|] eqn:P.
    2:{ injection E as <- <- <-. eexists _, _. split; [reflexivity|]. split; [exact S|reflexivity]. }
    destruct (heap_pop_in _ _ _ P HH) as [Hin HH1].
    apply assert_ok in E. cbn [get_up] in *. destruct S as [S1 S2].
    rewrite <- (S2 (en_page e) (en_off e)) by auto.
    destruct (v_up v (en_page e) (en_off e) =? 0); [eapply IH; eauto; split; auto|].
    apply assert_ok in E. cbn [set_up v_pix] in *. rewrite <- S1.
    destruct (apply (v_pix v) (en_page e) (en_off e) false _) as [pix|]; [|discriminate]. cbn [rbind] in *.
    assert (HD1 : page_eq (upd2 dw (en_page e) (en_off e) 0) (upd2 dw' (en_page e) (en_off e) 0)) by (apply page_eq_upd; auto).
    rewrite <- (compute_error_ext ed t (en_page e) _ _ _ rnd n (proj1 Hin) HD1).
    destruct (compute_error ed t (en_page e) _ _ false rnd n) as [[cands n1]|] eqn:CE; [|discriminate]. cbn [rbind] in *.
    destruct (fill_slots ed t false _ _ _ rnd n1 cands _ h1 [en_off e]) as [[[v3 h2] offs]|] eqn:FS; [|discriminate]. cbn [rbind] in *.
    assert (VS : vsim (set_pix {| v_pix := v_pix v; v_up := upd2 (v_up v) (en_page e) (en_off e) 0; v_aux_up := v_aux_up v; v_oow := v_oow v |} pix)
      (set_pix (set_up v' false (upd2 (v_up v') (en_page e) (en_off e) 0)) pix)).
    { split; [reflexivity|]. cbn. apply page_eq_upd. auto. }
    destruct (fill_sim ed t (en_page e) (en_off e) (mm_data (bm_main t) (en_page e) (en_off e)) rnd (proj1 Hin) cands n1 _ _
      h1 _ _ _ _ VS (compute_error_in _ _ _ _ _ _ _ _ _ CE) HH1 FS) as (w' & F1 & F2 & F3).
    cbn [set_up] in F1. rewrite <- S1 in F1. rewrite F1. cbn [rbind].
    assert (E2 : (c, w, g) = ((en_page e + 32, mm_data (bm_main t) (en_page e) (en_off e), pad4 offs), v3,
       GRun t false (upd2 dw (en_page e) (en_off e) 0) h2)) by congruence.
    apply (f_equal (fun x => (fst (fst x), snd (fst x), snd x))) in E2. cbn [fst snd] in E2.
    pose proof (f_equal (fun x => fst (fst x)) E2) as E3. pose proof (f_equal (fun x => snd (fst x)) E2) as E4.
    pose proof (f_equal snd E2) as E5. cbn [fst snd] in E3, E4, E5. subst c w g.
    eexists _, _. split; [reflexivity|]. split; [exact F2|].
    split; [reflexivity|]. split; [reflexivity|]. split; [reflexivity|]. split; [reflexivity|]. split; auto.
Qed.

(** weights of the first frame *)
Definition f_dw : Z -> Z -> Z := fun p o =>
  if p <? 2 then
    if o mod 128 <? 120 then
      match diff_weights ed_ex t_ex (v_pix (video_new HGR)) false with Ok f => f p o | Raise _ => 0 end
    else 0
  else 0.
Definition two_pages : list (Z * Z) := flat_map (fun p => map (fun o => (p, o)) (zrange 256)) (zrange 2).
Definition f1 : res (change * video * gen) :=
  let '(heap, n) := heapify_from f_dw zeros 0 two_pages in
  pop_f (length heap) ed_ex zeros n (set_up (video_new HGR) false f_dw) t_ex f_dw heap.
Definition step_f (r : res (change * video * gen)) : res (change * video * gen) :=
  match snd (state_of r) with
  | GRun t _ dw h => pop_f (length h) ed_ex zeros 0 (fst (state_of r)) t dw h
  | _ => Raise TypeError
  end.
Definition f2 := step_f f1.
Definition f3 := step_f f2.
Definition f4 := step_f f3.
Definition f5 := step_f f4.
Definition f6 := step_f f5.

Definition observe (r : res (change * video * gen)) :=
  (change_of r, map (v_up (fst (state_of r)) 0) [0; 2; 4],
   map (mm_data (bm_main (v_pix (fst (state_of r)))) 0) [0; 2; 4],
   match snd (state_of r) with GPad _ => true | _ => false end).

Lemma row_same p c : 2 <= p -> bm_packed t_ex p c = bm_packed (v_pix (video_new HGR)) p c.
Proof.
  intros H. cbn [bm_packed t_ex hgr_new video_new v_pix].
  assert (E : forall c, body HGR (mm_data frame_ex) (aux_data None) p c = body HGR (mm_data zero_memory) (aux_data None) p c).
  { intros c'. unfold body. cbn [mm_data frame_ex zero_memory].
    rewrite (proj2 (Z.eqb_neq p 0)), (proj2 (Z.eqb_neq p 1)) by lia. reflexivity. }
  unfold pack. rewrite !E. reflexivity.
Qed.
Lemma wt_same x : wt x x = 0.
Proof. unfold wt. rewrite Z.eqb_refl. reflexivity. Qed.
Lemma ed_same o x : 0 <= x < 2 ^ 14 -> ed_ex o (pair_index HGR x x) = 0.
Proof.
  intros H. unfold ed_ex, pair_index. destruct (o =? 0); [|reflexivity].
  change (MASKED_BITS HGR) with 14. rewrite Z.shiftl_mul_pow2 by lia.
  rewrite Z.div_add_l by (compute; discriminate). rewrite (Z.div_small x (2 ^ 14)) by auto. rewrite Z.add_0_r.
  replace (x * 2 ^ 14 + x) with ((x + x * 2 ^ 11 * 8)) by (change (2 ^ 14) with (2 ^ 11 * 8); ring).
  rewrite Z.div_add by lia. change (2 ^ 11) with (8 * 256).
  rewrite Z.mul_assoc, Z_mod_plus_full. apply wt_same.
Qed.
Lemma start_same : page_eq (start_distance ed_ex t_ex (v_pix (video_new HGR)) false) f_dw.
Proof.
  intros p o Hin. unfold start_distance, f_dw. rewrite hole_bool by auto.
  destruct (o mod 128 <? 120); cbn [negb]; [|destruct (p <? 2); reflexivity].
  destruct (Z.ltb_spec p 2) as [H|H]; [reflexivity|].
  destruct (diff_weights_ok ed_ex t_ex (v_pix (video_new HGR)) false ex_bank) as (f & E & S). rewrite E, S.
  rewrite row_same by auto. cbn [bm_kind t_ex hgr_new]. apply ed_same. apply (masked_bound HGR), (valid_bo HGR), ex_bank.
Qed.
Lemma priority_same : page_eq (start_priority ed_ex (video_new HGR) t_ex false) f_dw.
Proof.
  intros p o Hin. unfold start_priority. cbn [get_up video_new v_up]. rewrite start_same by auto.
  destruct (f_dw p o =? 0); reflexivity.
Qed.

Lemma heapify_app up rnd l l' n : (forall x, In x l' -> up (fst x) (snd x) = 0) ->
  heapify_from up rnd n (l ++ l') = heapify_from up rnd n l.
Proof.
  intros H. revert n. induction l as [|[p o] l IH]; intros n.
  - cbn [app]. induction l' as [|[p o] l' IH]; [reflexivity|]. cbn [heapify_from].
    pose proof (H (p, o) (or_introl eq_refl)) as E. cbn [fst snd] in E. rewrite E. cbn [Z.eqb].
    rewrite IH by (intros; apply H; right; auto). reflexivity.
  - cbn [app heapify_from]. rewrite !IH. reflexivity.
Qed.
Lemma heapify_ext up up' rnd l : (forall x, In x l -> up (fst x) (snd x) = up' (fst x) (snd x)) ->
  forall n, heapify_from up rnd n l = heapify_from up' rnd n l.
Proof.
  induction l as [|[p o] l IH]; intros H n; [reflexivity|]. cbn [heapify_from].
  pose proof (H (p, o) (or_introl eq_refl)) as E. cbn [fst snd] in E. rewrite <- E.
  rewrite !IH by (intros; apply H; right; auto). reflexivity.
Qed.
Lemma heapify_in up rnd l : (forall x, In x l -> in_page (fst x) (snd x)) ->
  forall n, heap_in (fst (heapify_from up rnd n l)).
Proof.
  induction l as [|[p o] l IH]; intros H n; [constructor|]. cbn [heapify_from].
  assert (H' : forall x, In x l -> in_page (fst x) (snd x)) by (intros; apply H; right; auto).
  destruct (up p o =? 0); [apply IH; auto|].
  destruct (heapify_from up rnd (n + 1) l) as [h m] eqn:E. cbn [fst]. constructor.
  - apply (H (p, o)). left. reflexivity.
  - pose proof (IH H' (n + 1)) as Q. rewrite E in Q. exact Q.
Qed.
Definition other_pages : list (Z * Z) := flat_map (fun p => map (fun o => (p, o)) (zrange 256)) (zrange2 2 32).
Transparent all_pairs.
Lemma pages_split : all_pairs = two_pages ++ other_pages.
Proof.
  unfold all_pairs, two_pages, other_pages. rewrite <- flat_map_app. f_equal.
Qed.
Opaque all_pairs.
Lemma other_pages_in p o : In (p, o) other_pages -> 2 <= p < 32.
Proof.
  unfold other_pages. rewrite in_flat_map. intros (q & Hq & H). apply in_map_iff in H. destruct H as (o' & E & _).
  injection E as <- _. unfold zrange2 in Hq. change (Z.to_nat (32 - 2)) with 30%nat in Hq. cbn in Hq. lia.
Qed.

Lemma start_ok ed rnd v t f x : diff_weights ed t (v_pix v) false = Ok f -> next ed rnd v (GStart t false) = Ok x ->
  pop_loop (length (fst (heapify_from (start_priority ed v t false) rnd 0 all_pairs))) ed rnd
    (snd (heapify_from (start_priority ed v t false) rnd 0 all_pairs))
    (set_up v false (start_priority ed v t false)) t false (start_distance ed t (v_pix v) false)
    (fst (heapify_from (start_priority ed v t false) rnd 0 all_pairs)) = Ok x.
Proof.
  intros E N. apply (eq_trans (eq_sym (next_start ed rnd v t false f E))) in N. cbn [bank_mem] in N. cbn [rbind] in N. apply assert_ok, assert_ok in N.
  unfold heapify_priorities in N. destruct (heapify_from (start_priority ed v t false) rnd 0 all_pairs). exact N.
Qed.
Lemma f_dw_other p o : 2 <= p -> f_dw p o = 0.
Proof. intros H. unfold f_dw. rewrite (proj2 (Z.ltb_ge p 2) H). reflexivity. Qed.
Lemma first_heap : heapify_from (start_priority ed_ex (video_new HGR) t_ex false) zeros 0 all_pairs = heapify_from f_dw zeros 0 two_pages.
Proof.
  rewrite (heapify_ext _ f_dw) by (intros [p o] Hx; apply priority_same, in_all_pairs, Hx).
  rewrite pages_split, heapify_app; [reflexivity|].
  intros [p o] H. apply other_pages_in in H. apply f_dw_other. apply H.
Qed.
Lemma first_heap_in : heap_in (fst (heapify_from f_dw zeros 0 two_pages)).
Proof.
  apply heapify_in. intros [p o] Hx. apply in_all_pairs. rewrite pages_split. apply in_or_app. auto.
Qed.
Lemma sim_first c v g0 : next ed_ex zeros (video_new HGR) (GStart t_ex false) = Ok (c, v, g0) ->
  exists w g, f1 = Ok (c, w, g) /\ vsim v w /\ gsim g0 g.
Proof.
  intros N. destruct (diff_weights_ok ed_ex t_ex (v_pix (video_new HGR)) false ex_bank) as (f & E & _).
  pose proof (start_ok ed_ex zeros (video_new HGR) t_ex f _ E N) as N1. clear N E.
  rewrite first_heap in N1. unfold f1. pose proof first_heap_in as HH.
  destruct (heapify_from f_dw zeros 0 two_pages) as [h n]. cbn [fst snd] in HH, N1.
  refine (pop_sim ed_ex t_ex zeros eq_refl _ _ _ _ _ _ _ _ _ _ _ _ start_same HH N1); [reflexivity|].
  split; [reflexivity|]. exact priority_same.
Qed.
Lemma sim_start : exists w g, f1 = Ok (change_of r1, w, g) /\ vsim (fst s1) w /\ gsim (snd s1) g.
Proof. exact (sim_first _ _ _ next1). Qed.
Definition is_hgr (k : kind) : bool := match k with HGR => true | DHGR => false end.
Definition kinds_ok (r : res (change * video * gen)) : bool :=
  match r with Ok (_, w, GRun t _ _ _) => is_hgr (bm_kind (v_pix w)) && is_hgr (bm_kind t) | _ => false end.
Lemma sim_step (s : video * gen) rn rf :
  (exists w g, rf = Ok (rn, w, g) /\ vsim (fst s) w /\ gsim (snd s) g) -> kinds_ok rf = true ->
  next ed_ex zeros (fst s) (snd s) = Ok (change_of (step_ex s), fst (state_of (step_ex s)), snd (state_of (step_ex s))) ->
  exists wf' gf', step_f rf = Ok (change_of (step_ex s), wf', gf') /\
    vsim (fst (state_of (step_ex s))) wf' /\ gsim (snd (state_of (step_ex s))) gf'.
Proof.
  intros (wf & gf & -> & VS & GS) K N. unfold step_f. cbn [state_of fst snd]. cbn [kinds_ok] in K.
  destruct (snd s) as [t a|t a dw h|x], gf as [t' a'|t' a' dw' h'|x']; cbn [gsim] in GS; try contradiction; try discriminate K.
  destruct GS as (-> & -> & -> & <- & HH & HD). cbn [next] in N.
  apply andb_true_iff in K. destruct K as [K1 K2].
  assert (K3 : v_mode (fst s) = HGR). { unfold v_mode. rewrite (proj1 VS). destruct (bm_kind (v_pix wf)); [reflexivity|discriminate]. }
  assert (K4 : bm_kind t' = HGR) by (destruct (bm_kind t'); [reflexivity|discriminate]).
  exact (pop_sim ed_ex t' zeros K4 _ _ _ _ _ _ _ _ _ _ K3 VS HD HH N).
Qed.
Lemma kinds : map kinds_ok [f1; f2; f3; f4; f5] = [true; true; true; true; true].
Proof. vm_compute. reflexivity. Qed.
Lemma kinds_nth i r : nth_error [f1; f2; f3; f4; f5] i = Some r -> kinds_ok r = true.
Proof.
  intros H. apply (map_nth_error kinds_ok) in H. rewrite kinds in H.
  do 5 (destruct i as [|i]; [cbn in H; congruence|]). destruct i; discriminate H.
Qed.

(** the fast steps compute the run *)
Definition same_step (r rf : res (change * video * gen)) : Prop :=
  exists w g, rf = Ok (change_of r, w, g) /\ vsim (fst (state_of r)) w /\ gsim (snd (state_of r)) g.
Lemma sim1 : same_step r1 f1. Proof. exact sim_start. Qed.
Lemma sim2 : same_step r2 f2. Proof. exact (sim_step s1 _ f1 sim1 (kinds_nth 0 f1 eq_refl) next2). Qed.
Lemma sim3 : same_step r3 f3. Proof. exact (sim_step s2 _ f2 sim2 (kinds_nth 1 f2 eq_refl) next3). Qed.
Lemma sim4 : same_step r4 f4. Proof. exact (sim_step s3 _ f3 sim3 (kinds_nth 2 f3 eq_refl) next4). Qed.
Lemma sim5 : same_step r5 f5. Proof. exact (sim_step s4 _ f4 sim4 (kinds_nth 3 f4 eq_refl) next5). Qed.
Lemma sim6 : same_step r6 f6. Proof. exact (sim_step s5 _ f5 sim5 (kinds_nth 4 f5 eq_refl) next6). Qed.

(** change drawn, priorities and memory at 0, 2, 4 of page 0 afterwards, idle? *)
Definition expected :=
  [ (32, 1, [0; 2; 0; 0],     [0; 10; 50], [1; 1; 0], false);
    (32, 2, [2; 2; 2; 2],     [0; 0; 50],  [1; 2; 0], false);
    (32, 3, [4; 4; 4; 4],     [0; 0; 0],   [1; 2; 3], false);
    (33, 3, [10; 20; 30; 10], [0; 0; 0],   [1; 2; 3], false);
    (33, 3, [40; 40; 40; 40], [0; 0; 0],   [1; 2; 3], false);
    (32, 1, [0; 0; 0; 0],     [0; 0; 0],   [1; 2; 3], true) ].
Lemma observed_f : map observe [f1; f2; f3; f4; f5; f6] = expected.
Proof. vm_compute. reflexivity. Qed.
Lemma observe_same r rf : same_step r rf -> observe r = observe rf.
Proof.
  intros (w & g & -> & [P U] & G). unfold observe. cbn [state_of change_of fst snd]. rewrite P.
  assert (E : map (v_up (fst (state_of r)) 0) [0; 2; 4] = map (v_up w 0) [0; 2; 4]).
  { cbn [map]. rewrite !U by (split; lia). reflexivity. }
  rewrite E. f_equal.
  destruct (snd (state_of r)), g; cbn [gsim] in G; try contradiction; reflexivity.
Qed.
Lemma obs i r rf : nth_error [f1; f2; f3; f4; f5; f6] i = Some rf -> same_step r rf ->
  nth_error expected i = Some (observe r).
Proof. intros H S. rewrite (observe_same r rf S), <- observed_f. apply map_nth_error. exact H. Qed.
Lemma some_inj {A} (x y : A) : Some x = Some y -> y = x.
Proof. intros H. injection H. auto. Qed.
Lemma obs1 : observe r1 = (32, 1, [0; 2; 0; 0], [0; 10; 50], [1; 1; 0], false).
Proof. exact (some_inj _ _ (obs 0 r1 f1 eq_refl sim1)). Qed.
Lemma obs2 : observe r2 = (32, 2, [2; 2; 2; 2], [0; 0; 50], [1; 2; 0], false).
Proof. exact (some_inj _ _ (obs 1 r2 f2 eq_refl sim2)). Qed.
Lemma obs4 : observe r4 = (33, 3, [10; 20; 30; 10], [0; 0; 0], [1; 2; 3], false).
Proof. exact (some_inj _ _ (obs 3 r4 f4 eq_refl sim4)). Qed.
Lemma obs6 : observe r6 = (32, 1, [0; 0; 0; 0], [0; 0; 0], [1; 2; 3], true).
Proof. exact (some_inj _ _ (obs 5 r6 f6 eq_refl sim6)). Qed.
Lemma obs_parts r c u m b : observe r = (c, u, m, b) ->
  change_of r = c /\ map (v_up (fst (state_of r)) 0) [0; 2; 4] = u /\ match snd (state_of r) with GPad _ => true | _ => false end = b.
Proof. unfold observe. intros H. injection H as H1 H2 H3 H4. rewrite <- H1, <- H2, <- H4. auto. Qed.
Opaque r1 r2 r3 r4 r5 r6.

(** C23: after the first change byte 2 has 10 left and byte 4 has 50, but byte 2 is next *)
Lemma stale_priority : exists l v g rnd c v' g', frame_run ed_ex (video_new HGR) t_ex false l v g /\
  next ed_ex rnd v g = Ok ((32, c, [2; 2; 2; 2]), v', g') /\ ~ is_pad g' /\
  priority_now ed_ex (video_new HGR) t_ex false v g 0 2 = 10 /\
  priority_now ed_ex (video_new HGR) t_ex false v g 0 4 = 50.
Proof.
  exists l1, (fst s1), (snd s1), zeros, 2, (fst s2), (snd s2).
  split; [exact run1|].
  destruct (obs_parts _ _ _ _ _ obs1) as (C1 & U1 & P1). destruct (obs_parts _ _ _ _ _ obs2) as (C2 & _ & P2).
  fold s1 in U1, P1. fold s2 in P2.
  pose proof next2 as N. rewrite C2 in N. split; [exact N|]. clear N C1 C2.
  pose proof (run_fstate ed_ex HGR 0 (video_new HGR) t_ex false ex_u16 ex_target ex_bank (vinv_new HGR) (Z.le_refl 0) _ _ _ run1) as F.
  remember (snd s2) as g2 eqn:E2. remember (snd s1) as g1 eqn:E1. remember (fst s1) as v1 eqn:E3. clear E1 E2 E3.
  split. { intros P. destruct g2; [destruct P|destruct P|discriminate P2]. }
  destruct g1 as [t a|t a dw h|c]; [|cbn [priority_now]|discriminate P1].
  - exfalso. inversion F as [L _| |]. unfold l1, l0 in L. exact (app_cons_not_nil _ _ _ (eq_sym L)).
  - cbn [map] in U1. injection U1 as _ U2 U3. cbn [get_up]. auto.
Qed.

(** C22: three other bytes would take the value 3 of byte 10, two get it *)
Definition later_f (o : Z) : bool := negb (v_up (fst (state_of f3)) 1 o =? 0) &&
  (store_error ed_ex t_ex false 1 o 3 <? f_dw 1 o).
Lemma later_values : map later_f [20; 30; 40] = [true; true; true].
Proof. vm_compute. reflexivity. Qed.
Lemma three_of_four_values : map (fun o => negb (v_up (fst s3) 1 o =? 0) &&
     (store_error ed_ex t_ex false 1 o 3 <? start_distance ed_ex t_ex (v_pix (video_new HGR)) false 1 o)) [20; 30; 40] = [true; true; true].
Proof.
  rewrite <- later_values. apply map_ext_in. intros o Ho. unfold later_f.
  assert (Hin : in_page 1 o) by (split; [lia|destruct Ho as [<-|[<-|[<-|[]]]]; lia]).
  rewrite start_same by auto. destruct sim3 as (w & g & E & [_ U] & _). rewrite E. cbn [state_of fst].
  change (fst s3) with (fst (state_of r3)). rewrite (U 1 o Hin). reflexivity.
Qed.
Lemma three_of_four : exists l v g rnd v' g', frame_run ed_ex (video_new HGR) t_ex false l v g /\
  next ed_ex rnd v g = Ok ((33, 3, [10; 20; 30; 10]), v', g') /\ ~ is_pad g' /\
  forall o, In o [20; 30; 40] -> priority_now ed_ex (video_new HGR) t_ex false v g 1 o <> 0 /\
     store_error ed_ex t_ex false 1 o 3 < start_distance ed_ex t_ex (v_pix (video_new HGR)) false 1 o.
Proof.
  exists l3, (fst s3), (snd s3), zeros, (fst s4), (snd s4).
  split; [exact run3|].
  destruct (obs_parts _ _ _ _ _ obs4) as (C4 & _ & P4). fold s4 in P4.
  pose proof next4 as N. rewrite C4 in N. split; [exact N|]. clear N C4.
  pose proof three_of_four_values as V.
  pose proof (run_fstate ed_ex HGR 0 (video_new HGR) t_ex false ex_u16 ex_target ex_bank (vinv_new HGR) (Z.le_refl 0) _ _ _ run3) as F.
  remember (snd s4) as g4 eqn:E4. remember (snd s3) as g3 eqn:E1. remember (fst s3) as v3 eqn:E3. clear E1 E4 E3.
  split. { intros P. destruct g4; [destruct P|destruct P|discriminate P4]. }
  intros o Ho.
  assert (PN : priority_now ed_ex (video_new HGR) t_ex false v3 g3 1 o = v_up v3 1 o).
  { destruct g3 as [t a|t a dw h|c]; [|reflexivity|reflexivity].
    exfalso. inversion F as [L _| |]. unfold l3 in L. exact (app_cons_not_nil _ _ _ (eq_sym L)). }
  rewrite PN.
  assert (E : In (negb (v_up v3 1 o =? 0) &&
     (store_error ed_ex t_ex false 1 o 3 <? start_distance ed_ex t_ex (v_pix (video_new HGR)) false 1 o)) [true; true; true]).
  { rewrite <- V. apply (in_map (fun o => negb (v_up v3 1 o =? 0) &&
     (store_error ed_ex t_ex false 1 o 3 <? start_distance ed_ex t_ex (v_pix (video_new HGR)) false 1 o))). exact Ho. }
  assert (E' : forall b, In b [true; true; true] -> b = true) by (intros b [<-|[<-|[<-|[]]]]; reflexivity).
  apply E' in E.
  apply andb_true_iff in E. destruct E as [E1 E2]. apply negb_true_iff, Z.eqb_neq in E1. apply Z.ltb_lt in E2. auto.
Qed.

(** a run that reaches idle padding *)
Lemma idle_run : exists l v g, frame_run ed_ex (video_new HGR) t_ex false l v g /\ is_pad g /\ length l = 6%nat.
Proof.
  exists l6, (fst s6), (snd s6). split; [exact run6|].
  destruct (obs_parts _ _ _ _ _ obs6) as (_ & _ & P6). fold s6 in P6.
  remember (snd s6) as g6 eqn:E. clear E. split; [|reflexivity].
  destruct g6; [discriminate P6|discriminate P6|exact I].
Qed.

(** ** C29: the blank screen with a palette bit *)
Definition frame_80 : memory_map := {| mm_page := 1; mm_data := fun p o => if (p =? 0) && (o =? 0) then 128 else 0 |}.
Definition t_80 : bitmap := hgr_new frame_80.
Lemma t80_target : good_target HGR t_80.
Proof.
  split; [apply reach_hgr; [reflexivity|]|split; [reflexivity|discriminate]].
  intros p o _ _. unfold is_byte. cbn [mm_data frame_80]. destruct ((p =? 0) && (o =? 0)); lia.
Qed.

Lemma t80_dots p d : hgr_dot (mm_data frame_80 p) d = false.
Proof.
  assert (C : forall o, clip_row (mm_data frame_80 p) o = 0 \/ clip_row (mm_data frame_80 p) o = 128).
  { intros o. unfold clip_row. cbn [mm_data frame_80]. destruct ((0 <=? o) && (o <? 256)), ((p =? 0) && (o =? 0)); auto. }
  unfold hgr_dot. pose proof (Z.mod_pos_bound d 14 ltac:(lia)) as B. set (r := d mod 14) in *. clearbody r.
  destruct (C (d / 14)) as [-> | ->].
  - change (b2z (Z.testbit 0 7)) with 0. destruct (r <? 0) eqn:E; [lia|]. apply Z.testbit_0_l.
  - change (b2z (Z.testbit 128 7)) with 1. destruct (Z.ltb_spec r 1).
    + destruct (C (d / 14 - 1)) as [-> | ->]; reflexivity.
    + change 128 with (2 ^ 7). rewrite Z.pow2_bits_eqb by lia. apply Z.eqb_neq. clear - B H. dlia.
Qed.

Lemma t80_distance ed p o : real_table HGR ed -> in_page p o -> start_distance ed t_80 (v_pix (video_new HGR)) false p o = 0.
Proof.
  intros (dm & value & t & V & HD & HP & HT & ->) [Hp Ho].
  unfold start_distance. destruct (screen_holes TABLES p o); [reflexivity|].
  destruct (diff_weights_ok (edit_distances HGR t) t_80 (v_pix (video_new HGR)) false ex_bank) as (f & E & _). rewrite E.
  apply (screen_zero_gen dm value t t_80 (v_pix (video_new HGR)) p o false f V HD HT); auto.
  - apply t80_target.
  - apply (vi_reach _ _ _ (vinv_new HGR)).
  - intros d _. left. cbn [row_dot bm_kind t_80 hgr_new].
    assert (Z0 : forall d, hgr_dot (mm_data (bm_main (v_pix (video_new HGR))) p) d = false).
    { intros d'. unfold hgr_dot. cbn [video_new v_pix hgr_new bm_main zero_memory mm_data].
      assert (C : forall i, clip_row (fun _ => 0) i = 0) by (intros i; unfold clip_row; destruct ((0 <=? i) && (i <? 256)); reflexivity).
      rewrite !C. change (b2z (Z.testbit 0 7)) with 0. destruct (d' mod 14 <? 0); rewrite !Z.testbit_0_l; reflexivity. }
    unfold pixel_colour. cbn [bm_main t_80 hgr_new]. rewrite !t80_dots, !Z0. reflexivity.
Qed.

Lemma pad_differs ed : real_table HGR ed -> forall rnd, exists v g,
  next ed rnd (video_new HGR) (GStart t_80 false) = Ok (pad_change t_80 false, v, g) /\
  bank_data (v_pix v) false 0 0 = 0 /\
  replay (bank_data (v_pix (video_new HGR)) false) [pad_change t_80 false] 0 0 = 128.
Proof.
  intros HR rnd.
  destruct (step_all ed HGR 0 (video_new HGR) t_80 false [] (video_new HGR) (GStart t_80 false) (real_u16 _ _ HR)
    (enc_new _ _) t80_target ex_bank (fr_start _ _ _ _) rnd) as (c & v & g & E & S).
  exists v, g. destruct S as [[S]|[[S1 S2 S3 S4]|S]].
  - exfalso. destruct S as (page & offset & new & dw' & heap' & _ & _ & _ & Hin & _ & N0 & _).
    apply N0. cbn [vs]. rewrite get_set_up. unfold start_priority. rewrite t80_distance by auto. reflexivity.
  - split; [rewrite E, S1; reflexivity|]. subst v. split; reflexivity.
  - destruct S as (S & _). discriminate.
Qed.

Lemma real_table_exists k : exists ed, real_table k ed.
Proof.
  assert (SM : small_matrix (fun i j => 7 * Z.abs (i - j))) by (intros i j Hi Hj; lia).
  destruct (table_spec _ k hgr_value (or_introl eq_refl) SM) as (t & E & _).
  exists (edit_distances k t), (fun i j => 7 * Z.abs (i - j)), hgr_value, t.
  split; [auto|]. split; [exact SM|]. split; [intros; right; lia|]. split; [exact E|reflexivity].
Qed.
