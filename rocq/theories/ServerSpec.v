(** Vocabulary for the server. *)
From Verif Require Import Base ServerModel.

(** the contents the file has had *)
Definition versions (content : list Z) (es : list event) : list (list Z) :=
  content :: flat_map (fun e => match e with Write l => [l] | _ => [] end) es.
(** client [c] has connected; has been served; the server is done with it *)
Definition connected (s : server) (c : nat) : Prop := (c < next s)%nat.
Definition in_service (s : server) (c : nat) : Prop := exists l, busy s = Some (c, l).
Definition finished (s : server) (c : nat) : Prop := connected s c /\ ~ In c (queue s) /\ ~ in_service s c.
(** the first part of a list *)
Definition begins {A} (l whole : list A) : Prop := exists more, whole = l ++ more.

(** Schedules on which the server is run again and again and the network accepts
    data again and again. *)
Definition serves (sched : nat -> event) : Prop :=
  (forall i, exists j, (i <= j)%nat /\ sched j = Accept) /\
  (forall i, exists j n, (i <= j)%nat /\ sched j = Pass (S n)).
Definition at_time (content : list Z) (sched : nat -> event) (t : nat) : server := after content (map sched (seq 0 t)).
