(** Model of transcoder/colours.py. *)
From Verif Require Import Base.

(** colours.py 83-84 *)
Definition ror1 (int4 : Z) : Z := Z.lxor (Z.shiftr (Z.land int4 14) 1) (Z.shiftl (Z.land int4 1) 3).
(** colours.py 96-97 *)
Definition rol1 (int4 : Z) : Z := Z.lxor (Z.shiftl (Z.land int4 7) 1) (Z.shiftr (Z.land int4 8) 3).

(** [for _ in range(howmany)] *)
Fixpoint iter (n : nat) (f : Z -> Z) (x : Z) : Z :=
  match n with O => x | S n' => iter n' f (f x) end.
(** colours.py 74-80; a negative count gives an empty range. *)
Definition ror (int4 howmany : Z) : Z := iter (Z.to_nat howmany) ror1 int4.
(** colours.py 87-93 *)
Definition rol (int4 howmany : Z) : Z := iter (Z.to_nat howmany) rol1 int4.

(** colours.py 18-42: HGRColours, in source order: name index and value.
    The two enums list the same 16 names in the same order. *)
Inductive colour_name :=
| BLACK | MAGENTA | BROWN | ORANGE | DARK_GREEN | GREY1 | GREEN | YELLOW
| DARK_BLUE | VIOLET | GREY2 | PINK | MED_BLUE | LIGHT_BLUE | AQUA | WHITE.

Definition all_colours : list colour_name :=
  [BLACK; MAGENTA; BROWN; ORANGE; DARK_GREEN; GREY1; GREEN; YELLOW;
   DARK_BLUE; VIOLET; GREY2; PINK; MED_BLUE; LIGHT_BLUE; AQUA; WHITE].

Definition hgr_value (c : colour_name) : Z :=
  match c with
  | BLACK => 0 | MAGENTA => 1 | BROWN => 8 | ORANGE => 9 | DARK_GREEN => 4
  | GREY1 => 5 | GREEN => 12 | YELLOW => 13 | DARK_BLUE => 2 | VIOLET => 3
  | GREY2 => 10 | PINK => 11 | MED_BLUE => 6 | LIGHT_BLUE => 7 | AQUA => 14 | WHITE => 15
  end.

(** colours.py 45-71: DHGRColours *)
Definition dhgr_value (c : colour_name) : Z :=
  match c with
  | BLACK => 0 | MAGENTA => 8 | BROWN => 4 | ORANGE => 12 | DARK_GREEN => 2
  | GREY1 => 10 | GREEN => 6 | YELLOW => 14 | DARK_BLUE => 1 | VIOLET => 9
  | GREY2 => 5 | PINK => 13 | MED_BLUE => 3 | LIGHT_BLUE => 11 | AQUA => 7 | WHITE => 15
  end.

(** [colours(v)]: Enum lookup by value, ValueError if there is none. *)
Definition enum_lookup (value : colour_name -> Z) (v : Z) : res colour_name :=
  match find (fun c => value c =? v) all_colours with
  | Some c => Ok c
  | None => Raise ValueError
  end.

(** colours.py 100-134: the loop of [dots_to_nominal_colour_pixels]. *)
Fixpoint colour_loop (value : colour_name -> Z) (n : nat) (shifted phase : Z) : res (list colour_name) :=
  match n with
  | O => Ok []
  | S n' =>
      let! c := enum_lookup value (rol (Z.land shifted 15) phase) in
      let phase' := phase + 1 in
      let! rest := colour_loop value n' (Z.shiftr shifted 1) (if phase' =? 4 then 0 else phase') in
      Ok (c :: rest)
  end.

Definition dots_to_nominal_colour_pixels (num_bits dots : Z) (value : colour_name -> Z)
    (init_phase : Z) : res (list colour_name) :=
  colour_loop value (Z.to_nat num_bits) dots init_phase.

(** colours.py 137-149 *)
Definition dots_to_nominal_colour_pixel_values (num_bits dots : Z) (value : colour_name -> Z)
    (init_phase : Z) : res (list Z) :=
  let! l := dots_to_nominal_colour_pixels num_bits dots value init_phase in
  Ok (map value l).
