(** Model of the streaming server, /repo/karabo_data/export.py: REPInterface (lines 28-54), ZMQStreamer.start, stop and
    feed (lines 108-118, 175-216), serve_files (lines 219-246).

    The program using a ZMQStreamer, its server threads and its clients run concurrently; a schedule is the list of
    the steps they make.  [do_step] gives the state after a step, None if the step is not possible in this state.

    Of ZeroMQ: a message which arrived is taken by recv() in any order; send_multipart() hands the reply over, it is
    transmitted later; close() with LINGER 0 discards what was not transmitted; requests may be lost at any time
    ([EDrop]), so those lost with a closed socket are included.  A port can be bound by one socket; other reasons for
    bind() to fail are [EBindFail].  Not modelled: the number of messages ZeroMQ holds back (high-water marks), clients
    which send a second request before the reply to the first (a REQ socket refuses this). *)
From Verif Require Import Base.
Set Implicit Arguments.
Local Open Scope list_scope.

Section Stream.
(** Messages, and whether they have no parts. *)
Variable M : Type.
Variable no_parts : M -> bool.
(** Clients are numbered; requests are strings. *)
Definition client_id := nat.

(** What the program does: start(), feed() (here after serialisation), stop(). *)
Inductive action := AStart | AFeed (m : M) | AStop.

(** The places in REPInterface.run, export.py 36-47. *)
Inductive place :=
| TBegin                                  (* 37-39: before bind() *)
| TLoop                                   (* 41: before the test of the stop event *)
| TRecv                                   (* 42: in recv() *)
| TGet (c : client_id)                    (* 45: in buffer.get(), to answer c *)
| TSend (c : client_id) (m : M)           (* 45: in send_multipart() *)
| TClose (err : bool) (bound : bool)      (* 46-48: in finally; err: with an exception *)
| TDone (err : bool).
Record thread := mk_th { th_at : place; th_stop : bool }.

Record state := mk_st {
  st_prog : list action;                  (* what the program has still to do *)
  st_join : option nat;                   (* the program is in stop(), waiting for this thread *)
  st_threads : list thread;
  st_iface : option nat;                  (* self._interface *)
  st_buffer : list M;                     (* self._buffer *)
  st_inbox : list (client_id * string);   (* requests on the way *)
  st_outbox : list (client_id * M);       (* replies handed to ZeroMQ, not transmitted *)
  (* histories *)
  st_fed : list M;                        (* feed() returned *)
  st_asked : list client_id;              (* requests sent *)
  st_taken : list client_id;              (* requests taken by the server *)
  st_sent : list (client_id * M);         (* send_multipart() returned *)
  st_delivered : list (client_id * M)     (* arrived at the client *)
}.

Inductive event :=
| EUser                                   (* a step of the program *)
| EThread (k : nat)                       (* a step of thread k, apart from recv() *)
| ERecv (k i : nat)                       (* recv() in thread k returns the i-th request on the way *)
| EBindFail (k : nat)
| ETransmit                               (* the first reply waiting goes to its client *)
| ERequest (c : client_id) (r : string)   (* a client asks *)
| EDrop (i : nat).                        (* a request is lost *)

Definition is_bound (t : thread) : bool :=
  match th_at t with TLoop | TRecv | TGet _ | TSend _ _ | TClose _ true => true | _ => false end.
Definition is_done (t : thread) : bool := match th_at t with TDone _ => true | _ => false end.

Fixpoint set_nth {A} (n : nat) (x : A) (l : list A) : list A :=
  match l, n with [], _ => [] | _ :: r, 0 => x :: r | y :: r, S n => y :: set_nth n x r end.
Fixpoint del_nth {A} (n : nat) (l : list A) : list A :=
  match l, n with [], _ => [] | _ :: r, 0 => r | y :: r, S n => y :: del_nth n r end.

Definition with_prog (s : state) p := mk_st p (st_join s) (st_threads s) (st_iface s) (st_buffer s) (st_inbox s) (st_outbox s)
  (st_fed s) (st_asked s) (st_taken s) (st_sent s) (st_delivered s).
Definition with_join (s : state) j i := mk_st (st_prog s) j (st_threads s) i (st_buffer s) (st_inbox s) (st_outbox s)
  (st_fed s) (st_asked s) (st_taken s) (st_sent s) (st_delivered s).
Definition with_threads (s : state) t := mk_st (st_prog s) (st_join s) t (st_iface s) (st_buffer s) (st_inbox s) (st_outbox s)
  (st_fed s) (st_asked s) (st_taken s) (st_sent s) (st_delivered s).
Definition with_iface (s : state) i := mk_st (st_prog s) (st_join s) (st_threads s) i (st_buffer s) (st_inbox s) (st_outbox s)
  (st_fed s) (st_asked s) (st_taken s) (st_sent s) (st_delivered s).
Definition with_buffer (s : state) b f := mk_st (st_prog s) (st_join s) (st_threads s) (st_iface s) b (st_inbox s) (st_outbox s)
  f (st_asked s) (st_taken s) (st_sent s) (st_delivered s).
Definition with_inbox (s : state) b a t := mk_st (st_prog s) (st_join s) (st_threads s) (st_iface s) (st_buffer s) b (st_outbox s)
  (st_fed s) a t (st_sent s) (st_delivered s).
Definition with_outbox (s : state) o n d := mk_st (st_prog s) (st_join s) (st_threads s) (st_iface s) (st_buffer s) (st_inbox s) o
  (st_fed s) (st_asked s) (st_taken s) n d.

Definition at_thread (s : state) (k : nat) (p : place) : state :=
  with_threads s (match nth_error (st_threads s) k with
                  | Some t => set_nth k (mk_th p (th_stop t)) (st_threads s) | None => st_threads s end).

(** queue.Queue(maxsize=maxlen): put() waits if there are maxlen items; no limit if maxlen <= 0. *)
Definition full (maxlen : Z) (b : list M) : bool := (0 <? maxlen)%Z && (maxlen <=? Z.of_nat (List.length b))%Z.

(** A step of the program: start (104-109), feed (211), stop (111-117). *)
Definition user_step (maxlen : Z) (s : state) : option state :=
  match st_join s with
  | Some k => match nth_error (st_threads s) k with
              | Some t => if is_done t then Some (with_join s None None) else None
              | None => None
              end
  | None =>
      match st_prog s with
      | [] => None
      | AStart :: r => Some (with_iface (with_threads (with_prog s r) (st_threads s ++ [mk_th TBegin false]))
                               (Some (List.length (st_threads s))))
      | AFeed m :: r => if full maxlen (st_buffer s) then None
                        else Some (with_buffer (with_prog s r) (st_buffer s ++ [m]) (st_fed s ++ [m]))
      | AStop :: r =>
          match st_iface s with
          | None => Some (with_prog s r)
          | Some k => Some (with_join (with_threads (with_prog s r)
                              (match nth_error (st_threads s) k with
                               | Some t => set_nth k (mk_th (th_at t) true) (st_threads s) | None => st_threads s end))
                              (Some k) (st_iface s))
          end
      end
  end.

(** A step of a server thread (36-47), apart from recv(). *)
Definition thread_step (s : state) (k : nat) : option state :=
  match nth_error (st_threads s) k with
  | None => None
  | Some t =>
      match th_at t with
      | TBegin => Some (at_thread s k (if existsb is_bound (st_threads s) then TClose true false else TLoop))
      | TLoop => Some (at_thread s k (if th_stop t then TClose false true else TRecv))
      | TRecv => None
      | TGet c => match st_buffer s with
                  | [] => None
                  | m :: b => Some (at_thread (with_buffer s b (st_fed s)) k (TSend c m))
                  end
      | TSend c m => if no_parts m then Some (at_thread s k (TClose true true))
                     else Some (at_thread (with_outbox s (st_outbox s ++ [(c, m)]) (st_sent s ++ [(c, m)]) (st_delivered s)) k TLoop)
      | TClose err bound => Some (at_thread (if bound then with_outbox s [] (st_sent s) (st_delivered s) else s) k (TDone err))
      | TDone _ => None
      end
  end.

(** recv() returns a request (42-44). *)
Definition recv_step (s : state) (k i : nat) : option state :=
  match nth_error (st_threads s) k, nth_error (st_inbox s) i with
  | Some t, Some (c, r) =>
      match th_at t with
      | TRecv => let s' := with_inbox s (del_nth i (st_inbox s)) (st_asked s) (st_taken s ++ [c]) in
                 Some (at_thread s' k (if String.eqb r "next" then TGet c else TClose true true))
      | _ => None
      end
  | _, _ => None
  end.

Definition do_step (maxlen : Z) (s : state) (e : event) : option state :=
  match e with
  | EUser => user_step maxlen s
  | EThread k => thread_step s k
  | ERecv k i => recv_step s k i
  | EBindFail k => match nth_error (st_threads s) k with
                   | Some t => match th_at t with TBegin => Some (at_thread s k (TClose true false)) | _ => None end
                   | None => None
                   end
  | ETransmit => match st_outbox s with
                 | [] => None
                 | x :: o => Some (with_outbox s o (st_sent s) (st_delivered s ++ [x]))
                 end
  | ERequest c r => Some (with_inbox s (st_inbox s ++ [(c, r)]) (st_asked s ++ [c]) (st_taken s))
  | EDrop i => match nth_error (st_inbox s) i with
               | Some _ => Some (with_inbox s (del_nth i (st_inbox s)) (st_asked s) (st_taken s))
               | None => None
               end
  end.
(** export.py 90-106: a new ZMQStreamer. *)
Definition init (prog : list action) : state := mk_st prog None [] None [] [] [] [] [] [] [] [].
Fixpoint steps (maxlen : Z) (s : state) (l : list event) : option state :=
  match l with
  | [] => Some s
  | e :: r => match do_step maxlen s e with Some s' => steps maxlen s' r | None => None end
  end.

(** ** serve_files *)
(** export.py 241-246: what the program does, for the trains of the data (an error ends the iteration).  [ser]: the
    message of a train, which may fail; a failure ends the program without stop().  [empty]: "if train_data". *)
Fixpoint serve_feeds {D} (ser : D -> res M) (empty : D -> bool) (items : list (res (Z * D))) : list action * bool :=
  match items with
  | [] => ([], true)
  | Err _ :: _ => ([], false)
  | Ok (_, d) :: r =>
      if empty d then serve_feeds ser empty r
      else match ser d with
           | Err _ => ([], false)
           | Ok m => (AFeed m :: fst (serve_feeds ser empty r), snd (serve_feeds ser empty r))
           end
  end.
Definition serve_program {D} (ser : D -> res M) (empty : D -> bool) (items : list (res (Z * D))) : list action :=
  AStart :: fst (serve_feeds ser empty items) ++ (if snd (serve_feeds ser empty items) then [AStop] else []).
End Stream.
Arguments AStart {M}.
Arguments AStop {M}.
Arguments TBegin {M}.
Arguments TLoop {M}.
Arguments TRecv {M}.
Arguments TGet {M} c.
Arguments TClose {M} err bound.
Arguments TDone {M} err.
