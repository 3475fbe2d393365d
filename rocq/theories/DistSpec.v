(** What the distance of two rows of pixels should be. *)
From Verif Require Import Base ScreenModel BitmapModel DisplaySpec BitmapSpec.

(** [way cost from to c]: a way of repainting the pixels [from] as [to] that costs
    [c] in all: pixels of the right colour stay, a pixel is repainted at
    [cost from to], two neighbours are exchanged at cost 1. *)
Inductive way (cost : Z -> Z -> Z) : list Z -> list Z -> Z -> Prop :=
| way_nil : way cost [] [] 0
| way_keep x s t c : way cost s t c -> way cost (x :: s) (x :: t) c
| way_repaint x y s t c : way cost s t c -> way cost (x :: s) (y :: t) (cost x y + c)
| way_swap x y s t c : way cost s t c -> way cost (x :: y :: s) (y :: x :: t) (1 + c).

(** [least_cost cost from to c]: [c] is the cost of the cheapest way *)
Definition least_cost (cost : Z -> Z -> Z) (from to : list Z) (c : Z) : Prop :=
  way cost from to c /\ forall c', way cost from to c' -> c <= c'.

(** cost of repainting one colour as another: their perceptual difference, taken
    from one triangle of the matrix [dm] *)
Definition colour_cost (dm : Z -> Z -> Z) (x y : Z) : Z := dm (Z.max x y) (Z.min x y).

(** the colours that a byte takes part in, on the screen [b]: the byte at [off] of
    page [p] (of the auxiliary bank if [is_aux]) *)
Definition colours_at (b : bitmap) (p off : Z) (is_aux : bool) : list Z :=
  map (fun i => pixel_colour (row_dot (bm_kind b) (mm_data (bm_main b) p) (aux_data (bm_aux b) p)) (window_start (bm_kind b) off is_aux + i))
    (zrange (MASKED_DOTS (bm_kind b))).
