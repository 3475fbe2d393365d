(** Shared conventions of the model: exceptions as values, Python ranges,
    array updates.  No statement about the code lives here. *)
From Coq Require Export ZArith List Bool Lia.
From Coq Require Export ZifyBool ZifyNat.
Export ListNotations.
Open Scope Z_scope.

(** [lia] with division and modulo by constants. *)
Ltac dlia := Z.div_mod_to_equations; lia.

(** Python exceptions the modelled code can raise. *)
Inductive exn :=
| ValueError | IndexError | AssertionError | KeyError | TypeError
| StopIteration | NotImplementedError | ZeroDivisionError | NameError | OutOfFuel.

Inductive res (A : Type) :=
| Ok (a : A)
| Raise (e : exn).
Arguments Ok {A} a.
Arguments Raise {A} e.

Definition rbind {A B} (r : res A) (f : A -> res B) : res B :=
  match r with Ok a => f a | Raise e => Raise e end.
Notation "'let!' x ':=' a 'in' b" := (rbind a (fun x => b))
  (at level 200, x pattern, a at level 100, b at level 200).

(** Python [assert]. *)
Definition assert_ {A} (b : bool) (k : res A) : res A :=
  if b then k else Raise AssertionError.

(** [range(n)] *)
Fixpoint zrange_from (a : Z) (n : nat) : list Z :=
  match n with O => [] | S n' => a :: zrange_from (a + 1) n' end.
Definition zrange (n : Z) : list Z := zrange_from 0 (Z.to_nat n).
(** [range(a, b)] *)
Definition zrange2 (a b : Z) : list Z := zrange_from a (Z.to_nat (b - a)).

(** one- and two-dimensional arrays with functional update *)
Definition upd1 {A} (f : Z -> A) (i : Z) (v : A) : Z -> A :=
  fun j => if j =? i then v else f j.
Definition upd2 {A} (f : Z -> Z -> A) (i j : Z) (v : A) : Z -> Z -> A :=
  fun a b => if (a =? i) && (b =? j) then v else f a b.

(** Index normalisation of numpy and Python sequences of length [n]:
    [-n <= i < n] is accepted, negative indices count from the end. *)
Definition norm_index (n i : Z) : res Z :=
  if (0 <=? i) && (i <? n) then Ok i
  else if (- n <=? i) && (i <? 0) then Ok (i + n)
  else Raise IndexError.

(** Boolean to bit. *)
Definition b2z (b : bool) : Z := if b then 1 else 0.
