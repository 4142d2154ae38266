(** Words for the properties of the streaming server. *)
From Verif Require Import Base M_Stream.
Set Implicit Arguments.
Local Open Scope list_scope.

(** [l] is the beginning of [l']. *)
Definition prefix {A} (l l' : list A) : Prop := exists r, l' = l ++ r.
(** [l] is [l'] with some elements left out. *)
Inductive sublist {A} : list A -> list A -> Prop :=
| sl_nil : sublist [] []
| sl_skip x l l' : sublist l l' -> sublist l (x :: l')
| sl_keep x l l' : sublist l l' -> sublist (x :: l) (x :: l').
(** How often a client occurs. *)
Definition times (c : client_id) (l : list client_id) : nat := List.length (filter (Nat.eqb c) l).

Section Stream.
Context {M : Type}.
(** The messages a program feeds. *)
Definition feeds (p : list (action M)) : list M := flat_map (fun a => match a with AFeed m => [m] | _ => [] end) p.
(** The server: steps of the program, the threads and the transport, not of clients or failures. *)
Definition own_step (e : event) : bool :=
  match e with EUser | EThread _ | ERecv _ _ | ETransmit => true | _ => false end.
(** Nothing can happen without the clients. *)
Definition quiet (no_parts : M -> bool) (maxlen : Z) (s : state M) : Prop :=
  forall e, own_step e = true -> do_step no_parts maxlen s e = None.
(** Only clients asking for the next train; nothing lost, no failing bind(). *)
Definition friendly (e : event) : bool :=
  match e with ERequest _ r => String.eqb r "next" | EBindFail _ | EDrop _ => false | _ => true end.
(** The program has come to its end. *)
Definition finished (s : state M) : Prop := st_prog s = [] /\ st_join s = None.
(** start(), feed() for each message, stop(). *)
Definition served_once (ms : list M) : list (action M) := AStart :: List.map (@AFeed M) ms ++ [AStop].
(** The socket is closed: no thread is bound to the port. *)
Definition port_free (s : state M) : Prop := existsb (@is_bound M) (st_threads s) = false.
End Stream.
