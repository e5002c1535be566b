From Coq Require Import String Ascii NArith ZArith List Arith Bool.
From Verif Require Import Base TextModel TextSpec YamlModel LoggerModel MetricsText.
Import ListNotations.
Open Scope string_scope.
Open Scope N_scope.
Open Scope list_scope.

(** Vocabulary of the properties of logging, independent of the code. *)

(** The seven levels and their ranks on the scale of spdlog *)
Definition known (l : N) : Prop := In l [0; 1; 2; 3; 4; 5; 4294967295].
Definition rank (l : N) : N := if l =? 4294967295 then 6 else l.

(** a sink is configured to take messages of this level and topic *)
Definition wants (s : sink) (level topic : N) : bool :=
  (num (s_level s) <=? level) && negb (existsb (N.eqb topic) (s_disabled s))
  && (match s_enabled s with [] => true | l => existsb (N.eqb topic) l end).

(** the lines of one sink, and the messages that a remote sink gave to handlers *)
Definition lines (i : nat) (l : list event) : list out :=
  flat_map (fun e => match e with EOut j o => if Nat.eqb j i then [o] else [] | ESend _ _ _ => [] end) l.
Definition sent (i : nat) (l : list event) : list (N * LogMsg) :=
  flat_map (fun e => match e with ESend j h m => if Nat.eqb j i then [(h, m)] else [] | EOut _ _ => [] end) l.

(** The messages that a chain of builder calls dispatches, whatever the sinks are *)
Fixpoint put (k v : text) (l : kvs) : kvs :=
  match l with [] => [(k, v)] | p :: r => if text_eqb (fst p) k then (fst p, v) :: r else p :: put k v r end.
Fixpoint dispatched (m : lmsg) (l : list cmd) : list (Z * lmsg) :=
  match l with
  | [] => []
  | SetText t :: l => dispatched (mkMsg (m_level m) (m_topic m) t (m_kvs m)) l
  | AddKv k v :: l => dispatched (mkMsg (m_level m) (m_topic m) (m_text m) (m_kvs m ++ [(k, v)])) l
  | SetKv k v :: l => dispatched (mkMsg (m_level m) (m_topic m) (m_text m) (put k v (m_kvs m))) l
  | SetTopic t :: l => dispatched (mkMsg (m_level m) t (m_text m) (m_kvs m)) l
  | SetLevel v :: l => dispatched (mkMsg v (m_topic m) (m_text m) (m_kvs m)) l
  | Dispatch now :: l => (now, m) :: dispatched m l
  end.
Definition keeps_level (c : cmd) : Prop := match c with SetLevel _ => False | _ => True end.
Definition regular (o : op) : Prop :=
  match o with
  | Log _ l _ _ => known l
  | Message l _ c => known l /\ Forall keeps_level c
  | Received m => known (lm_level m)
  | Register _ | Disable => True
  end.

(** The lines a local sink should get from a call *)
Definition lines_of (name : text) (s : sink) (o : op) : list out :=
  match o with
  | Log now l t msg => if wants s l t then [mkOut now name (rank l) (render_text t msg (s_format s))] else []
  | Message l t c =>
      flat_map (fun x => let m := snd x in
        if wants s l (m_topic m) then [mkOut (fst x) name (rank l) (render (m_topic m) (m_text m) (m_kvs m) (s_format s))] else [])
        (dispatched (mkMsg l t [] []) c)
  | Received m =>
      if num (s_level s) <=? lm_level m
      then [mkOut (lm_time m) (lm_loggerName m) (rank (lm_level m)) (render (lm_topic m) (lm_payload m) (lm_keyValues m) (s_format s))] else []
  | Register _ | Disable => []
  end.
(** The messages a remote sink should send, given the handler registered at the time *)
Fixpoint sent_of (name : text) (s : sink) (h : option N) (l : list op) : list (N * LogMsg) :=
  match l with
  | [] => []
  | Register h :: l => sent_of name s (Some h) l
  | Disable :: l => sent_of name s None l
  | Received _ :: l => sent_of name s h l
  | Log now lv t msg :: l =>
      match h with Some h => if wants s lv t then [(h, mkLogMsg name lv now no_source (lit "[" ++ topic_to_string t ++ lit "] " ++ msg) [] t)] else [] | None => [] end
      ++ sent_of name s h l
  | Message lv t c :: l =>
      match h with
      | Some h => flat_map (fun x => let m := snd x in
          if wants s lv (m_topic m) then [(h, mkLogMsg name lv (fst x) no_source (m_text m) (m_kvs m) (m_topic m))] else []) (dispatched (mkMsg lv t [] []) c)
      | None => []
      end ++ sent_of name s h l
  end.

(** ** Reading a line of a Json sink *)
Record entry := mkEntry { e_ts : text; e_log : text; e_lvl : text; e_topic : option text; e_msg : text; e_kvs : kvs }.
Definition opt {A B} (x : option A) (f : A -> option B) : option B := match x with Some a => f a | None => None end.
Fixpoint read_pairs (fuel : nat) (strict : bool) (s : text) : option (kvs * text) :=
  match fuel with
  | O => None
  | Datatypes.S fuel =>
      opt (expect (lit """") s) (fun s => opt (read_string strict s) (fun x => let (k, s) := x in
      opt (expect (lit ":""") s) (fun s => opt (read_string strict s) (fun x => let (v, s) := x in
      match expect (lit ",") s with
      | Some s => opt (read_pairs fuel strict s) (fun x => Some ((k, v) :: fst x, snd x))
      | None => opt (expect (lit "}") s) (fun s => Some ([(k, v)], s))
      end))))
  end.
Definition read_entry (strict : bool) (s : text) : option (entry * text) :=
  opt (expect (lit "{""ts"":""") s) (fun s => opt (read_string strict s) (fun x => let (ts, s) := x in
  opt (expect (lit ",""log"":""") s) (fun s => opt (read_string strict s) (fun x => let (n, s) := x in
  opt (expect (lit ",""lvl"":""") s) (fun s => opt (read_string strict s) (fun x => let (lv, s) := x in
  opt (expect (lit ", ") s) (fun s =>
  opt (match expect (lit """topic"": """) s with
       | Some s => opt (read_string strict s) (fun x => opt (expect (lit ", ") (snd x)) (fun s => Some (Some (fst x), s)))
       | None => Some (None, s)
       end) (fun x => let (t, s) := x in
  opt (expect (lit """msg"": """) s) (fun s => opt (read_string strict s) (fun x => let (m, s) := x in
  opt (match expect (lit ", ""kv"": {") s with
       | Some s => read_pairs (length s) strict s
       | None => Some ([], s)
       end) (fun x => let (l, s) := x in
  opt (expect (lit " }") s) (fun s => opt (expect [10] s) (fun s => Some (mkEntry ts n lv t m l, s)))))))))))))).
Fixpoint read_entries (fuel : nat) (strict : bool) (s : text) : option (list entry) :=
  match fuel, s with
  | _, [] => Some []
  | O, _ => None
  | Datatypes.S fuel, _ => opt (read_entry strict s) (fun x => opt (read_entries fuel strict (snd x)) (fun l => Some (fst x :: l)))
  end.
(** characters that stand for themselves in a string literal *)
Definition plain_char (c : N) : Prop := c <> 34 /\ c <> 92 /\ 32 <= c.
Definition no_raw (l : kvs) : Prop := Forall (fun p => fst p <> lit "Raw") l.
Definition clean (strict : bool) (s : text) : Prop := strict = true -> Forall (fun c => ~ other_control c) s.
Definition clean_kvs (strict : bool) (l : kvs) : Prop := Forall (fun p => clean strict (fst p) /\ clean strict (snd p)) l.

(** What is to be read for a message *)
Definition level_word (l : N) : text :=
  lit match l with 0 => "trace" | 1 => "debug" | 2 => "info" | 3 => "warning" | 4 => "error" | 5 => "critical" | _ => "off" end.
Definition entry_for (now : Z) (name : text) (l t : N) (msg : text) (k : kvs) : entry :=
  mkEntry (decimal (Z.to_N (now / 1000))) name (level_word l) (if t =? 0 then None else Some (topic_to_string t)) msg k.
Definition entries_of (name : text) (s : sink) (o : op) : list entry :=
  match o with
  | Log now l t msg => if wants s l t then [mkEntry (decimal (Z.to_N (now / 1000))) name (level_word l) (Some (topic_to_string t)) msg []] else []
  | Message l t c =>
      flat_map (fun x => let m := snd x in if wants s l (m_topic m) then [entry_for (fst x) name l (m_topic m) (m_text m) (m_kvs m)] else [])
        (dispatched (mkMsg l t [] []) c)
  | Received m => if num (s_level s) <=? lm_level m then [entry_for (lm_time m) (lm_loggerName m) (lm_level m) (lm_topic m) (lm_payload m) (lm_keyValues m)] else []
  | Register _ | Disable => []
  end.
Definition readable (strict : bool) (o : op) : Prop :=
  match o with
  | Log now _ _ msg => (0 <= now)%Z /\ clean strict msg
  | Message l t c => Forall (fun x => (0 <= fst x)%Z /\ clean strict (m_text (snd x)) /\ no_raw (m_kvs (snd x)) /\ clean_kvs strict (m_kvs (snd x)))
                       (dispatched (mkMsg l t [] []) c)
  | Received m => Forall plain_char (lm_loggerName m) /\ (0 <= lm_time m)%Z /\ clean strict (lm_payload m) /\ no_raw (lm_keyValues m) /\ clean_kvs strict (lm_keyValues m)
  | Register _ | Disable => True
  end.
