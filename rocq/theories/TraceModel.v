(** Model of the PCAP trace sink, the PCAP reader and the replay scheduler:
    SilKit/source/tracing/{Pcap.hpp,PcapSink.cpp,PcapReader.cpp,PcapReplay.cpp,ReplayScheduler.cpp}. *)
From Coq Require Import ZArith NArith List Arith Bool Lia.
From Verif Require Import Base MessageBufferModel.
Import ListNotations.
Open Scope N_scope.

(** An Ethernet frame with its timestamp in nanoseconds *)
Record frame := mkFrame { f_time : Z; f_raw : list N }.

(** ** Pcap.hpp *)
(** 12 *)
Definition native_magic : N := 2712812621. (* 0xa1b23c4d *)
(** 18-27; the bytes of the struct on a little-endian machine *)
Definition global_header : list N :=
  le_bytes 4 native_magic ++ le_bytes 2 2 ++ le_bytes 2 4 ++ le_bytes 4 0 ++ le_bytes 4 0 ++ le_bytes 4 65535 ++ le_bytes 4 1.
(** 30-36 and PcapSink.cpp:107-114: conversion of the timestamp; unsigned 64-bit arithmetic, then narrowing to 32 bits *)
Definition usec (ts : Z) : N := Z.to_N (Z.modulo (Z.quot ts 1000) (2 ^ 64)).
Definition u32 (x : N) : N := x mod 2 ^ 32.
Definition packet_header (f : frame) : list N :=
  le_bytes 4 (u32 (usec (f_time f) / 1000000)) ++ le_bytes 4 (u32 (usec (f_time f) mod 1000000)) ++
  le_bytes 4 (u32 (N.of_nat (length (f_raw f)))) ++ le_bytes 4 (u32 (N.of_nat (length (f_raw f)))).

(** ** PcapSink.cpp. Simplification: writing to the file or pipe succeeds. [s_file], [s_pipe]: the bytes written since Open. *)
Record sink := mkSink { s_file : option (list N); s_pipe : option (list N); s_hdr : bool }.
Definition sink0 := mkSink None None false.
Inductive sink_type := PcapFile | PcapNamedPipe | OtherSink.
(** 37-62 *)
Definition open_sink (t : sink_type) (path_empty : bool) (s : sink) : sink * res unit :=
  if path_empty then (s, Exn) else
  match t with
  | PcapFile => (mkSink (Some global_header) (s_pipe s) (s_hdr s), Ok tt)
  | PcapNamedPipe => (mkSink (s_file s) (Some []) false, Ok tt)
  | OtherSink => (s, Exn)
  end.
(** 92-150 Trace; [eth]: the message is an Ethernet frame. raw.at(0) of an empty frame throws after the packet header was written. *)
Definition wr (o : option (list N)) (bs : list N) : option (list N) := match o with Some x => Some (x ++ bs) | None => None end.
Definition trace (eth : bool) (f : frame) (s : sink) : sink * res unit :=
  if negb eth then (s, Exn) else
  match s_file s, f_raw f with
  | Some _, [] => (mkSink (wr (s_file s) (packet_header f)) (s_pipe s) (s_hdr s), Exn)
  | _, _ =>
      let fl := wr (s_file s) (packet_header f ++ f_raw f) in
      match s_pipe s with
      | None => (mkSink fl None (s_hdr s), Ok tt)
      | Some p =>
          let p := if s_hdr s then p else p ++ global_header in
          match f_raw f with
          | [] => (mkSink fl (Some (p ++ packet_header f)) true, Exn)
          | _ => (mkSink fl (Some (p ++ packet_header f ++ f_raw f)) true, Ok tt)
          end
      end
  end.
Fixpoint traces (l : list (bool * frame)) (s : sink) : sink :=
  match l with [] => s | (eth, f) :: l => traces l (fst (trace eth f s)) end.

(** ** std::istream: the remaining bytes and good(); a short read consumes what is there and sets eofbit and failbit *)
Record stream := mkStream { st_rest : list N; st_good : bool }.
Definition sread (n : N) (s : stream) : stream * option (list N) :=
  if negb (st_good s) then (s, None) else
  if n <=? N.of_nat (length (st_rest s)) then (mkStream (skipn (N.to_nat n) (st_rest s)) true, Some (firstn (N.to_nat n) (st_rest s)))
  else (mkStream [] false, None).

(** ** PcapReader.cpp *)
Record reader := mkReader { r_all : list N; r_stream : stream; r_cur : option frame; r_num : N }.
Definition field (pos n : nat) (bs : list N) : N := of_le (firstn n (skipn pos bs)).
(** 168-203 one iteration of Seek *)
Definition seek1 (r : reader) : reader * bool :=
  match sread 16 (r_stream r) with
  | (s, None) => (mkReader (r_all r) s (r_cur r) (r_num r), false)
  | (s, Some h) =>
      match sread (field 8 4 h) s with
      | (s, None) => (mkReader (r_all r) s (r_cur r) (r_num r), false)
      | (s, Some raw) =>
          (mkReader (r_all r) s (Some (mkFrame (Z.of_N (field 0 4 h * 1000000000 + field 4 4 h * 1000)) raw)) (r_num r + 1), true)
      end
  end.
(** 168-203 *)
Fixpoint seek (n : nat) (r : reader) : reader * bool :=
  match n with
  | O => (r, true)
  | S n => match seek1 r with (r, true) => seek n r | (r, false) => (r, false) end
  end.
(** 128-151; the stream is at its start after seekg(0). The version is rejected only if both numbers differ. *)
Definition read_global_header (s : stream) : res stream :=
  match sread 24 s with
  | (_, None) => Exn
  | (s, Some h) =>
      if negb (field 0 4 h =? native_magic) then Exn
      else if negb (field 4 2 h =? 2) && negb (field 6 2 h =? 4) then Exn
      else Ok s
  end.
(** 99-126 Reset of a freshly opened file with contents [bs]; 74-84 constructors *)
Definition open_reader (bs : list N) (num : N) : res reader :=
  bind (read_global_header (mkStream bs true)) (fun s => Ok (fst (seek1 (mkReader bs s None num)))).
(** 205-209 *)
Definition read (r : reader) : option frame := r_cur r.
(** 87-97 copy constructor; PcapReplay.cpp:60-65 GetReader: the file is opened again, the number of messages is copied first *)
Definition copy_reader (r : reader) : res reader := open_reader (r_all r) (r_num r).

(** ** ReplayScheduler.cpp. The reader is any IReplayChannelReader: [rd] is Read, [sk] is Seek(1). *)
Section Replay.
  Variables R M : Type.
  Variable rd : R -> option M.
  Variable sk : R -> R * bool.
  Variable time : M -> Z.
  Record task := mkTask { t_reader : R; t_done : bool }.
  (** 421-455: the loop of one task; [None]: out of fuel *)
  Fixpoint replay_task (fuel : nat) (till : Z) (t : task) : option (task * list M) :=
    match fuel with
    | O => None
    | S fuel =>
        match rd (t_reader t) with
        | None => Some (mkTask (t_reader t) true, [])
        | Some m =>
            if (till <=? time m)%Z then Some (t, [])
            else match sk (t_reader t) with
                 | (r, false) => Some (mkTask r true, [m])
                 | (r, true) => match replay_task fuel till (mkTask r (t_done t)) with Some (t, l) => Some (t, m :: l) | None => None end
                 end
        end
    end.
  Fixpoint replay_tasks (fuel : nat) (till : Z) (ts : list task) : option (list task * list (list M)) :=
    match ts with
    | [] => Some ([], [])
    | t :: ts =>
        match (if t_done t then Some (t, []) else replay_task fuel till t), replay_tasks fuel till ts with
        | Some (t, l), Some (ts, ls) => Some (t :: ts, l :: ls)
        | _, _ => None
        end
    end.
  Record sched := mkSched { c_start : option Z; c_tasks : list task }.
  (** 397-458 ReplayMessages; [sync]: IsSynchronizingVirtualTime; [tnow]: the time provider's Now(). The result lists, per task, the
      messages given to its controller. *)
  Definition replay_messages (fuel : nat) (sync : bool) (tnow now duration : Z) (s : sched) : option (sched * res (list (list M))) :=
    if negb sync then Some (s, Ok []) else
    let start := match c_start s with Some x => x | None => tnow end in
    if (now - start <? 0)%Z then Some (mkSched (Some start) (c_tasks s), Exn) else
    match replay_tasks fuel (now - start + duration) (c_tasks s) with
    | Some (ts, ls) => Some (mkSched (Some start) ts, Ok ls)
    | None => None
    end.
End Replay.
Arguments mkTask {R}. Arguments t_reader {R}. Arguments t_done {R}.
Arguments mkSched {R}. Arguments c_start {R}. Arguments c_tasks {R}.

(** ** IReplayDataController.hpp:19-34 and EthController.cpp:250-287: what a controller does with a replayed message.
    A PcapMessage always has direction TX (PcapReader.cpp:38). *)
Inductive rdir := RUndefined | RSend | RReceive | RBoth.
Inductive mdir := TX | RX | TXRX | MUndef.
Definition enabled (cfg want : rdir) : bool := match cfg, want with RBoth, RSend | RBoth, RReceive | RSend, RSend | RReceive, RReceive => true | _, _ => false end.
Inductive effect := Send | Receive.
Definition on_replay (cfg : rdir) (active : bool) (d : mdir) : res (list effect) :=
  if negb active then Ok [] else
  match d with
  | TX => Ok (if enabled cfg RSend then [Send] else [])
  | RX => Ok (if enabled cfg RReceive then [Receive] else [])
  | TXRX => Ok ((if enabled cfg RReceive then [Receive] else []) ++ (if enabled cfg RSend then [Send] else []))
  | MUndef => Exn
  end.
