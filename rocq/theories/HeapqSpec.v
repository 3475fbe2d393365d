(** Vocabulary of C80. *)
From Verif Require Import Base VideoModel HeapqModel.
From Coq Require Import Permutation.

(** [reached content h]: some history of [heapify], [heappush] and [heappop] has
    led to the list [h]; [content] is what was put in and not yet taken out. *)
Inductive reached : list entry -> list entry -> Prop :=
| r_heapify l : reached l (heapify l)
| r_push content h e : reached content h -> reached (e :: content) (heappush h e)
| r_pop content h e h' content' : reached content h -> heappop h = Some (e, h') -> Permutation content (e :: content') -> reached content' h'.
(** Python's order of tuples *)
Definition not_after (a b : entry) : Prop := entry_lt b a = false.
