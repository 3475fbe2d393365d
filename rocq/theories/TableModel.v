(** Model of transcoder/make_data_tables.py (the offline edit-distance tables),
    of palette.py's RGB maps, of the third-party [weighted_levenshtein.dam_lev]
    and of Bitmap.edit_distances (screen.py 343-367). *)
From Verif Require Import Base ScreenModel BitmapModel ColourModel.

(** [for x in l: s = f s x], stopping at the first exception *)
Fixpoint fold_res {S A} (f : S -> A -> res S) (l : list A) (s : S) : res S :=
  match l with
  | [] => Ok s
  | x :: l' => let! s' := f s x in fold_res f l' s'
  end.
Fixpoint map_res {A B} (f : A -> res B) (l : list A) : res (list B) :=
  match l with
  | [] => Ok []
  | x :: l' => let! y := f x in let! r := map_res f l' in Ok (y :: r)
  end.

(** make_data_tables.py 17: ord of the characters of "0123456789ABCDEF" *)
Definition PIXEL_CHARS : list Z :=
  [48; 49; 50; 51; 52; 53; 54; 55; 56; 57; 65; 66; 67; 68; 69; 70].
(** make_data_tables.py 20-21 *)
Definition pixel_char (i : Z) : res Z :=
  let! j := norm_index 16 i in Ok (nth (Z.to_nat j) PIXEL_CHARS 0).
(** make_data_tables.py 24-26; a string is the list of its character codes *)
Definition pixel_string (pixels : list Z) : res (list Z) := map_res pixel_char pixels.

(** palette.py 33-78: the RGB maps, keyed by HGRColours members. *)
Definition rgb := (Z * Z * Z)%type.
Definition ntsc_rgb (c : colour_name) : rgb :=
  match c with
  | BLACK => (0, 0, 0) | MAGENTA => (148, 12, 125) | BROWN => (99, 77, 0)
  | ORANGE => (249, 86, 29) | DARK_GREEN => (51, 111, 0) | GREY1 => (126, 126, 126)
  | GREEN => (67, 200, 0) | YELLOW => (221, 206, 23) | DARK_BLUE => (32, 54, 212)
  | VIOLET => (188, 55, 255) | GREY2 => (126, 126, 126) | PINK => (255, 129, 236)
  | MED_BLUE => (7, 168, 225) | LIGHT_BLUE => (158, 172, 255) | AQUA => (93, 248, 133)
  | WHITE => (255, 255, 255)
  end.
Definition iigs_rgb (c : colour_name) : rgb :=
  match c with
  | BLACK => (0, 0, 0) | MAGENTA => (221, 0, 51) | BROWN => (136, 85, 34)
  | ORANGE => (255, 102, 0) | DARK_GREEN => (0, 119, 0) | GREY1 => (85, 85, 85)
  | GREEN => (0, 221, 0) | YELLOW => (255, 255, 0) | DARK_BLUE => (0, 0, 153)
  | VIOLET => (221, 0, 221) | GREY2 => (170, 170, 170) | PINK => (255, 153, 136)
  | MED_BLUE => (34, 34, 255) | LIGHT_BLUE => (102, 170, 255) | AQUA => (0, 255, 153)
  | WHITE => (255, 255, 255)
  end.

(** make_data_tables.py 55-70: [compute_diff_matrix].  [delta a b] stands for
    [int(delta_e_cie2000(lab a, lab b))] (colormath, not modelled).  The loops
    run over the dict items in source order; entries are stored at the values of
    the dict's keys, which are HGRColours members. *)
Definition compute_diff_matrix (delta : rgb -> rgb -> Z) (pal : colour_name -> rgb) : Z -> Z -> Z :=
  fold_left (fun dm c1 =>
    fold_left (fun dm c2 => upd2 dm (hgr_value c1) (hgr_value c2) (delta (pal c1) (pal c2)))
      all_colours dm)
    all_colours (fun _ _ => 0).

(** make_data_tables.py 29-52: the parameter arrays (only the entries the code
    can index are meaningful). *)
Record edp := { e_sub : Z -> Z -> Z; e_err : Z -> Z -> Z }.
Definition insert_costs (c : Z) : Z := 100000.
Definition delete_costs (c : Z) : Z := 100000.
(** make_data_tables.py 37-40 defines this array, but [edit_distance] does not
    pass it; dam_lev's default transposition cost is an array of ones too. *)
Definition transpose_costs (c d : Z) : Z := 1.

(** make_data_tables.py 73-89: [compute_substitute_costs], given the matrix. *)
Definition compute_substitute_costs (dm : Z -> Z -> Z) : edp :=
  fold_left (fun e i =>
    let c := nth (Z.to_nat i) PIXEL_CHARS 0 in
    fold_left (fun e j =>
      let d := nth (Z.to_nat j) PIXEL_CHARS 0 in
      let cost := dm i j in
      {| e_sub := upd2 (upd2 (e_sub e) c d cost) d c cost;
         e_err := upd2 (upd2 (e_err e) c d (5 * cost)) d c (5 * cost) |})
      (zrange 16) e)
    (zrange 16) {| e_sub := fun _ _ => 0; e_err := fun _ _ => 0 |}.

(** weighted_levenshtein's [dam_lev] (third-party; its documented algorithm,
    Cython source clev.pyx: dynamic programming over a matrix with one extra
    border row and column).  [str_1_get]: *)
Definition get1 (s : list Z) (i : Z) : Z := nth (Z.to_nat (i - 1)) s 0.
Definition slen (s : list Z) : Z := Z.of_nat (length s).

Record costs := { c_ins : Z -> Z; c_del : Z -> Z; c_sub : Z -> Z -> Z; c_tr : Z -> Z -> Z }.

(** One inner iteration.  Simplification: where [k = 0] or [l = 0] the library
    adds finite costs to a border cell holding DTYPE_MAX, which is never the
    minimum; the model omits that candidate. *)
Definition dl_inner (cs : costs) (a b : list Z) (i : Z) (da : Z -> Z)
    (s : (Z -> Z -> Z) * Z) (j : Z) : (Z -> Z -> Z) * Z :=
  let '(d, db) := s in
  let ci := get1 a i in
  let cj := get1 b j in
  let k := da cj in
  let l := db in
  let cost := if ci =? cj then 0 else c_sub cs ci cj in
  let db' := if ci =? cj then j else db in
  let m := Z.min (Z.min (d (i - 1) (j - 1) + cost) (d i (j - 1) + c_ins cs cj))
                 (d (i - 1) j + c_del cs ci) in
  let v := if (0 <? k) && (0 <? l)
           then Z.min m (d (k - 1) (l - 1) + (d (i - 1) 0 - d k 0)
                         + c_tr cs (get1 a k) (get1 b l) + (d 0 (j - 1) - d 0 l))
           else m in
  (upd2 d i j v, db').

Definition dl_outer (cs : costs) (a b : list Z) (s : (Z -> Z -> Z) * (Z -> Z)) (i : Z)
    : (Z -> Z -> Z) * (Z -> Z) :=
  let '(d, da) := s in
  let '(d', _) := fold_left (dl_inner cs a b i da) (zrange2 1 (slen b + 1)) (d, 0) in
  (d', upd1 da (get1 a i) i).

Definition dl_border (cs : costs) (a b : list Z) : Z -> Z -> Z :=
  let d1 := fold_left (fun d i => upd2 d i 0 (d (i - 1) 0 + c_del cs (get1 a i)))
              (zrange2 1 (slen a + 1)) (fun _ _ => 0) in
  fold_left (fun d j => upd2 d 0 j (d 0 (j - 1) + c_ins cs (get1 b j)))
    (zrange2 1 (slen b + 1)) d1.

Definition dam_lev (cs : costs) (a b : list Z) : Z :=
  let '(d, _) := fold_left (dl_outer cs a b) (zrange2 1 (slen a + 1)) (dl_border cs a b, fun _ => 0) in
  d (slen a) (slen b).

(** make_data_tables.py 92-108: [edit_distance] with its assertion. *)
Definition edit_costs (e : edp) (error : bool) : costs :=
  {| c_ins := insert_costs; c_del := delete_costs;
     c_sub := if error then e_err e else e_sub e; c_tr := transpose_costs |}.
Definition edit_distance (e : edp) (a b : list Z) (error : bool) : res Z :=
  let r := dam_lev (edit_costs e error) a b in
  assert_ ((0 <=? r) && (r <? 2 ^ 16)) (Ok r).

(** make_data_tables.py 147-152, 165-170: the pixel string of a masked value *)
Definition masked_pixel_string (k : kind) (value : colour_name -> Z) (o ph i : Z) : res (list Z) :=
  let! dots := to_dots k i o in
  let! px := dots_to_nominal_colour_pixel_values (MASKED_DOTS k) dots value ph in
  pixel_string px.

(** [enumerate(l)] *)
Definition enumerate {A} (l : list A) : list (Z * A) :=
  combine (zrange (Z.of_nat (length l))) l.

(** make_data_tables.py 111-174: [compute_edit_distance].  The progress bar is
    not modelled. *)
Definition compute_edit_distance (e : edp) (k : kind) (value : colour_name -> Z) : res table :=
  fold_res (fun edit i =>
    fold_res (fun edit (oph : Z * Z) =>
      let '(o, ph) := oph in
      let! first_pixels := masked_pixel_string k value o ph i in
      fold_res (fun edit j =>
        let! second_pixels := masked_pixel_string k value o ph j in
        let! dist := edit_distance e first_pixels second_pixels false in
        Ok (upd2 edit o (pair_index k i j) dist))
        (zrange i) edit)
      (enumerate (PHASES k)) edit)
    (zrange (2 ^ MASKED_BITS k)) (fun _ _ => 0).

(** screen.py 343-367: [edit_distances] after loading the file: for every index
    [dist[transpose] += dist[identity]], the right-hand side being evaluated
    before the (one-to-one) assignment; uint16 addition wraps. *)
Definition transpose (k : kind) (idx : Z) : Z :=
  Z.shiftr idx (MASKED_BITS k) + Z.shiftl (Z.land idx (2 ^ MASKED_BITS k - 1)) (MASKED_BITS k).
Definition edit_distances (k : kind) (dist : table) : table :=
  fun o idx =>
    if (0 <=? idx) && (idx <? 2 ^ (2 * MASKED_BITS k))
    then (dist o idx + dist o (transpose k idx)) mod 2 ^ 16
    else dist o idx.
