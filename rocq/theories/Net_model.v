(** Model of two endpoints joined by a network that loses, duplicates, delays and
    reorders packets (definitions only).

    Endpoint A sends on its streams, endpoint B receives.  The bytes of the packets
    of A are those of Send_model and Repeat_model, and B reads them with the decoder
    of Frames_model and the streams of Stream_model.

    Simplifications.  Packets are complete and authentic: the packet protection is not
    modelled, and a packet that arrives is one that was sent.  The other frames of
    A's packets (ACK, MAX_DATA, ...) are left out of the payloads; their effect on B,
    like that of B's packets on A, is an event that can occur at any time with any
    contents.  The state of A's streams that decides what has to be repeated
    (acknowledgements, priorities) is arbitrary at each step. *)
From Verif Require Import Base Varint_model Frames_model Stream_model Send_model Repeat_model.

(** What is put in a packet, in order, picoquic/sender.c 2795-2905: stream frames
    (2869), repeated STREAM frames (2853), and other frames of a lost packet, copied
    (loss_recovery.c 677-783): the [k]-th item of the log. *)
Inductive part :=
| PFill (fuel : nat) (now prio : N) (app : nat -> reply)
| PRepeat (streams : list rstream) (pos : nat)
| PAgain (k : nat).

(** The copy of a RESET_STREAM or STOP_SENDING frame sent before, if it fits:
    picoquic/loss_recovery.c 735-768, picoquic/frames.c 354-377 and 955-985. *)
Definition again (x : option item) (room : N) : list N :=
  let w := match x with
           | Some (IReset id err final) => reset_writer id err final room
           | Some (IStop id err) => stop_writer id err room
           | _ => None end in
  match w with Some b => b | None => [] end.

(** The loop that fills a packet, picoquic/sender.c 2805-2905: each part is attempted
    only while [bytes_next + 8 < bytes_max] (2805, 2852, 2868).  Simplified: the order of the
    parts is arbitrary (it follows from priorities in the code).  [None]: the loops
    of Send_model do not end, have undefined behaviour or return NULL, or the
    repetition fails (excluded by C19_queue). *)
Fixpoint build (parts : list part) (c : snd_cnx) (q : list lost) (log : list item) (room : N)
    : option (snd_cnx * list lost * list item * list N) :=
  match parts with
  | [] => Some (c, q, log, [])
  | p :: r =>
    if room <=? 8 then Some (c, q, log, [])
    else
      let go c q log b :=
        match build r c q log (room - blen b) with
        | Some (c, q, log, b') => Some (c, q, log, b ++ b')
        | None => None
        end in
      match p with
      | PFill fuel now prio app =>
        match fill fuel c room now prio app with
        | LDone c' b its _ => go c' q (log ++ its) b
        | _ => None
        end
      | PRepeat streams pos =>
        match copy_frames streams q room pos with
        | Some (b, _, q', true) => go c q' log b
        | _ => None
        end
      | PAgain k => go c q log (again (nth_error log k) room)
      end
  end.

(** What B does with the frames, picoquic/frames.c 6377-6662 and the functions of
    Stream_model; [None] is undefined behaviour. *)
Definition receiver : handlers (option scnx) :=
  mk_h
    (fun s f =>
       let lift (g : scnx -> option (scnx * bool)) :=
         match s with
         | None => (None, false)
         | Some c => match g c with Some (c', ok) => (Some c', ok) | None => (None, false) end
         end in
       match f with
       | RStream id off fin d => lift (fun c => stream_frame c id off fin d)
       | RReset id _ final => lift (fun c => Some (reset_frame c id final))
       | RStopSending id _ => lift (fun c => Some (stop_sending_frame c id))
       | _ => (s, true)
       end)
    (fun c code _ => match c with Some c => Some (conn_error c code) | None => None end)
    (fun _ _ => true).

(** Both endpoints and the network: A's streams, A's queue of lost packets, the log of
    A's application and of the new frames of A, the packets sent so far (the network
    may deliver each of them any number of times), B's streams, and whether B has not
    stopped on an error. *)
Record net := mk_net {
  a_snd : snd_cnx;
  a_queue : list lost;
  a_log : list item;
  a_packets : list (list N);
  b_rcv : scnx;
  b_ok : bool }.

(** A packet is sent; a packet is declared lost (picoquic/loss_recovery.c 785-875) and
    its STREAM frames queued (frames.c 1998-2013); anything else happens at A
    (application calls, frames of the peer); a packet arrives; anything else happens
    at B. *)
Inductive nev :=
| NPacket (room : N) (parts : list part)
| NLost (k : nat) (streams : list rstream) (pos : nat)
| NLocalA (e : sev)
| NArrive (k : nat) (o : options) (epoch : N)
| NLocalB (o : sop).

(** One event; [None]: the event is not possible, or undefined behaviour. *)
Definition net_step (n : net) (e : nev) : option net :=
  match e with
  | NPacket room parts =>
    match build parts (a_snd n) (a_queue n) (a_log n) room with
    | Some (c, q, log, b) => Some (mk_net c q log (a_packets n ++ [b]) (b_rcv n) (b_ok n))
    | None => None
    end
  | NLost k streams pos =>
    match nth_error (a_packets n) k with
    | Some b =>
      match queue_lost streams b pos (a_queue n) with
      | Some q => Some (mk_net (a_snd n) q (a_log n) (a_packets n) (b_rcv n) (b_ok n))
      | None => None
      end
    | None => None
    end
  | NLocalA e =>
    match e with
    | SFill _ _ _ _ _ => None
    | _ =>
      match snd_step (a_snd n) e with
      | Some (c, its) => Some (mk_net c (a_queue n) (a_log n ++ its) (a_packets n) (b_rcv n) (b_ok n))
      | None => None
      end
    end
  | NArrive k o epoch =>
    match nth_error (a_packets n) k with
    | Some b =>
      if b_ok n then
        match decode_frames receiver o epoch (Some (b_rcv n)) b with
        | (Some c, Some ok) => Some (mk_net (a_snd n) (a_queue n) (a_log n) (a_packets n) c ok)
        | _ => None
        end
      else Some n
    | None => None
    end
  | NLocalB o =>
    match o with
    | OpStream _ _ _ _ | OpReset _ _ => None
    | _ =>
      if b_ok n then
        match sstep (b_rcv n) o with
        | Some (c, ok) => Some (mk_net (a_snd n) (a_queue n) (a_log n) (a_packets n) c ok)
        | None => None
        end
      else Some n
    end
  end.

(** A history. *)
Fixpoint net_run (n : net) (evs : list nev) : option net :=
  match evs with
  | [] => Some n
  | e :: r => match net_step n e with Some n' => net_run n' r | None => None end
  end.

(** Two new connections, one client and one server. *)
Definition net0 (client : bool) (prio0 : N) (p : params) (nb nu md mdr br ur : N) : net :=
  mk_net (snd0 client prio0) [] [] [] (scnx0 (negb client) p nb nu md mdr br ur) true.
