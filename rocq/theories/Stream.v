(** Model of the responses to GET /events: main.rs:171-185 [http_events], over the channel [events] (main.rs:119,
    [tokio::sync::broadcast], its capacity), and what a browser makes of them. *)
From Verif Require Import Base Uci MacAddress Pica Http.

Section Stream.
Context {P : Type} (default_position : P) (compute : P -> P -> N * Z * Z).

(** main.rs:119 [broadcast::channel(1024)] *)
Definition CAPACITY : N := 1024.

(** One response: the receiver of the channel it reads from ([m_next] is the number, from the start of the process, of
    the event it is to read next), the events in its body so far, and whether it goes on. *)
Record stream : Type := Stream { m_next : nat; m_sent : list (event P); m_open : bool }.
(** The web server with its responses to GET /events; they are numbered from 0. *)
Record server : Type := Server { v_web : web P; v_streams : gmap N stream; v_count : N }.
Definition server_new : server := Server web_new ∅ 0.

Inductive server_label : Type :=
  | VWeb (l : web_label P)      (* an action of the server (Http.v) *)
  | VOpen                       (* a GET /events *)
  | VPoll (k : N)               (* the body of response [k] is continued, when an event is there *)
  | VLeave (k : N).             (* the client of response [k] has left: its receiver is dropped *)

(** Number of events that receiver has not read. *)
Definition unread (w : web P) (m : stream) : nat := length (w_events w) - m_next m.

(** One action. The channel keeps the last [CAPACITY] events: a receiver which is to read an older one gets
    [Err(Lagged)], which the stream passes on (main.rs:172-180) and which ends the body ([Body::wrap_stream]). *)
Definition server_step (l : server_label) (v : server) : option server :=
  let ended (k : N) (m : stream) :=
    w ← web_step default_position compute WUnsubscribe (v_web v);
    Some (Server w (<[k := Stream (m_next m) (m_sent m) false]> (v_streams v)) (v_count v)) in
  match l with
  | VWeb (WSubscribe | WUnsubscribe) => None
  | VWeb l => w ← web_step default_position compute l (v_web v); Some (Server w (v_streams v) (v_count v))
  | VOpen =>
      w ← web_step default_position compute WSubscribe (v_web v);
      Some (Server w (<[v_count v := Stream (length (w_events (v_web v))) [] true]> (v_streams v)) (v_count v + 1))
  | VPoll k =>
      match w_end (v_web v), v_streams v !! k with
      | None, Some m =>
          if negb (m_open m) then None
          else if CAPACITY <? N.of_nat (unread (v_web v) m) then ended k m
          else
            match w_events (v_web v) !! m_next m with
            | Some ev => Some (Server (v_web v) (<[k := Stream (S (m_next m)) (m_sent m ++ [ev]) true]> (v_streams v)) (v_count v))
            | None => None
            end
      | _, _ => None
      end
  | VLeave k =>
      match v_streams v !! k with
      | Some m => if m_open m then ended k m else None
      | None => None
      end
  end.
Fixpoint server_run (ls : list server_label) (v : server) : option server :=
  match ls with
  | [] => Some v
  | l :: ls => v ← server_step l v; server_run ls v
  end.
End Stream.
Arguments stream : clear implicits.
Arguments server : clear implicits.
Arguments server_label : clear implicits.
