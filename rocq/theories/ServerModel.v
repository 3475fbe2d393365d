(** server/server.py: serving a file to any number of clients. *)
From Verif Require Import Base.

(** State of the server process, the network and the clients.
    [file] is the content of [serve_file]; [next] counts the connections made so
    far; [queue] are those not yet accepted (oldest first); [busy] is the one
    whose [handle] is running, with what [sendall] has still to pass on;
    [flight c] is what has been passed on but has not arrived; [got c] is what
    client [c] has received; [gone c]: it has dropped the connection.
    Simplified: the listen queue is not limited (socketserver's request_queue_size
    is 5). *)
Record server := Server {
  file : list Z; next : nat; queue : list nat; busy : option (nat * list Z);
  flight : nat -> list Z; got : nat -> list Z; gone : nat -> bool }.

Inductive event :=
  | Connect              (* another client connects *)
  | Drop (c : nat)       (* client [c] drops its connection *)
  | Write (l : list Z)   (* the file gets another content *)
  | Accept               (* the server takes a request, if it is waiting for one *)
  | Pass (n : nat)       (* the network accepts [n] bytes of [sendall]'s *)
  | Arrive (c n : nat).  (* [n] bytes arrive at client [c] *)

Definition upd {A} (f : nat -> A) (c : nat) (v : A) : nat -> A := fun d => if Nat.eqb d c then v else f d.

(** server.py 29-35: bind, activate, serve_forever (one request at a time: the
    default TCPServer, no threads) *)
Definition start (content : list Z) : server :=
  Server content 0 [] None (fun _ => []) (fun _ => []) (fun _ => false).

(** server.py 21-25, [handle]: read all of the file, then [sendall]; when it
    returns or raises (the client is gone), socketserver ends the request
    (its handle_error only prints) and waits for the next. *)
Definition pass_on (s : server) (c : nat) (left : list Z) : server :=
  Server (file s) (next s) (queue s) (match left with [] => None | _ => Some (c, left) end) (flight s) (got s) (gone s).
Definition step (s : server) (e : event) : server :=
  match e with
  | Connect => Server (file s) (S (next s)) (queue s ++ [next s]) (busy s) (flight s) (got s) (gone s)
  | Drop c => Server (file s) (next s) (queue s) (busy s) (flight s) (got s) (upd (gone s) c true)
  | Write l => Server l (next s) (queue s) (busy s) (flight s) (got s) (gone s)
  | Accept =>
      match busy s, queue s with
      | None, c :: q => pass_on (Server (file s) (next s) q None (flight s) (got s) (gone s)) c (file s)
      | _, _ => s
      end
  | Pass n =>
      match busy s with
      | Some (c, l) =>
          if gone s c then pass_on s c []
          else pass_on (Server (file s) (next s) (queue s) (busy s) (upd (flight s) c (flight s c ++ firstn n l)) (got s) (gone s)) c (skipn n l)
      | None => s
      end
  | Arrive c n =>
      if gone s c then s
      else Server (file s) (next s) (queue s) (busy s) (upd (flight s) c (skipn n (flight s c))) (upd (got s) c (got s c ++ firstn n (flight s c))) (gone s)
  end.
Definition after (content : list Z) (es : list event) : server := fold_left step es (start content).

(** server.py 12: the port served by default *)
Definition default_port : Z := 1977.
