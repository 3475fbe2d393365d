(** screen.py 496-522: the sanity check of a bitmap's packed words (no caller in
    the repository).  Printing of the offending words is not modelled. *)
From Verif Require Import Base ScreenModel BitmapModel.

(** screen.py 505 *)
Definition mask_hf : Z := 0x380000007.
(** screen.py 499-507: [np.roll] along the columns *)
Definition check_word (k : kind) (packed : Z -> Z -> Z) (p o : Z) : Z :=
  Z.land (Z.lxor (Z.lxor (packed p o) (make_header k (packed p ((o - 1) mod 128))))
                 (make_footer k (packed p ((o + 1) mod 128)))) mask_hf.
(** screen.py 508-522: columns 0 and 127 are passed over *)
Definition check_consistency (b : bitmap) : res unit :=
  assert_ (forallb (fun p => forallb (fun o => (check_word (bm_kind b) (bm_packed b) p o =? 0) || (o =? 0) || (o =? 127)) (zrange 128)) (zrange 32))
    (Ok tt).
