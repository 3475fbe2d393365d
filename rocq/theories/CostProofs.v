(** C18 for double hi-res. *)
From Verif Require Import Base ScreenModel BitmapModel ColourModel DisplaySpec BitmapSpec TableModel TableSpec TableProofs TableFacts.

(** the costs of double hi-res colours are those of the hi-res colours with the
    same values *)
Lemma sub_costs_dhgr delta pal c1 c2 n1 n2 :
  hgr_value n1 = dhgr_value c1 -> hgr_value n2 = dhgr_value c2 ->
  let e := compute_substitute_costs (compute_diff_matrix delta pal) in
  (e_sub e (chr (dhgr_value c1)) (chr (dhgr_value c2)) = delta (pal n1) (pal n2) \/
   e_sub e (chr (dhgr_value c1)) (chr (dhgr_value c2)) = delta (pal n2) (pal n1)).
Proof. intros <- <-. apply sub_costs_hgr. Qed.
Lemma sub_costs_dhgr_same delta pal c1 c2 :
  (In c1 [BLACK; WHITE] /\ In c2 [BLACK; WHITE]) \/ (In c1 [GREY1; GREY2] /\ In c2 [GREY1; GREY2] /\ c1 <> c2) ->
  let e := compute_substitute_costs (compute_diff_matrix delta pal) in
  (e_sub e (chr (dhgr_value c1)) (chr (dhgr_value c2)) = delta (pal c1) (pal c2) \/
   e_sub e (chr (dhgr_value c1)) (chr (dhgr_value c2)) = delta (pal c2) (pal c1)).
Proof.
  intros [[[<-|[<-|[]]] [<-|[<-|[]]]]|([<-|[<-|[]]] & [<-|[<-|[]]] & N)]; try congruence;
    try (apply (sub_costs_dhgr delta pal); reflexivity).
  - destruct (sub_costs_dhgr delta pal GREY1 GREY2 GREY2 GREY1 eq_refl eq_refl) as [H|H]; [right|left]; exact H.
  - destruct (sub_costs_dhgr delta pal GREY2 GREY1 GREY1 GREY2 eq_refl eq_refl) as [H|H]; [right|left]; exact H.
Qed.
