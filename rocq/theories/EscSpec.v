(** Reference meaning of the two streams, written without the code's loops. *)
From Verif Require Import Base EscModel.
Local Open Scope Z_scope.

(** ** The client-to-server stream: 0xFF introduces a two-byte sequence. *)
Inductive item := Data (b : Z) | Cmd (c : Z).

Fixpoint parse (s : list Z) : list item :=
  match s with
  | [] => []
  | 255 :: t =>
      match t with
      | [] => []                       (* sequence not complete yet *)
      | 255 :: t' => Data 255 :: parse t'
      | c :: t' => Cmd c :: parse t'
      end
  | b :: t => Data b :: parse t
  end.

(** Is a sequence left incomplete at the end? *)
Fixpoint dangling (s : list Z) : bool :=
  match s with
  | [] => false
  | 255 :: t => match t with [] => true | _ :: t' => dangling t' end
  | _ :: t => dangling t
  end.

Definition item_data (i : item) : list Z :=
  match i with Data b => [b] | Cmd _ => [] end.

Definition known (c : Z) : option scmd :=
  match c with
  | 66 => Some SBreak     (* B *)
  | 68 => Some SDel       (* D *)
  | 70 => Some SForce     (* F *)
  | 74 => Some SJoin      (* J *)
  | 76 => Some SReplay    (* L *)
  | 77 => Some SMonitor   (* M *)
  | 81 => Some SQuiet     (* Q *)
  | 82 => Some SReset     (* R *)
  | 90 => Some SSuspend   (* Z *)
  | _ => None
  end.

Definition item_cmd (i : item) : list scmd :=
  match i with
  | Data _ => []
  | Cmd c => match known c with Some x => [x] | None => [] end
  end.

Definition stream_data (s : list Z) : list Z := flat_map item_data (parse s).
Definition stream_cmds (s : list Z) : list scmd := flat_map item_cmd (parse s).

(** A stream whose first byte was preceded by an escape byte in an earlier chunk. *)
Definition pre (got : bool) (s : list Z) : list Z := if got then (255 :: s)%Z else s.

(** Data and commands seen on the server side, each in order. *)
Definition eff_data (e : effect) : list Z := match e with EData d => d | ECmd _ => [] end.
Definition eff_cmd (e : effect) : list scmd := match e with ECmd c => [c] | EData _ => [] end.

(** What the stream means, in stream order. *)
Definition item_effect (i : item) : list effect :=
  match i with
  | Data b => [EData [b]]
  | Cmd c => match known c with Some x => [ECmd x] | None => [] end
  end.

(** What the console receives as bytes when the client has write access: data,
    and 0x7F for the DEL command. *)
Definition effect_bytes (e : effect) : list Z :=
  match e with EData d => d | ECmd SDel => [127] | ECmd _ => [] end.

(** ** The keyboard: the escape character introduces a two-key sequence. *)
Inductive key := Plain (c : Z) | Escaped (c : Z).

Fixpoint keys_of (esc : Z) (typed : list Z) : list key :=
  match typed with
  | [] => []
  | c :: t =>
      if c =? esc then
        match t with [] => [] | d :: t' => Escaped d :: keys_of esc t' end
      else Plain c :: keys_of esc t
  end.

(** Session state visible to the user. *)
Record session := mkS { s_write : bool; s_bcast : bool; s_can_reset : bool }.

Definition letters : list Z :=
  [66; 46; 68; 69; 70; 63; 73; 74; 76; 77; 81; 82; 90].   (* B . D E F ? I J L M Q R Z *)
Definition is_command (c : Z) : bool := existsb (Z.eqb c) letters.

(** Meaning of one key: what goes to the server, and the new session state. *)
Definition key_meaning (esc : Z) (s : session) (k : key) : session * list item :=
  let data l := if s_write s then map Data l else [] in
  match k with
  | Plain c => (s, data [c])
  | Escaped c =>
      if negb (is_command c) then
        (s, if c =? esc then data [esc] else data [esc; c])
      else match c with
      | 66 | 68 => (s, if s_write s then [Cmd c] else [])          (* B, D *)
      | 70 | 74 =>                                                 (* F, J *)
          if s_write s then (s, [])
          else (mkS true (s_bcast s) (s_can_reset s), [Cmd c])
      | 77 =>                                                      (* M *)
          if s_write s && negb (s_bcast s)
          then (mkS false (s_bcast s) (s_can_reset s), [Cmd c])
          else (s, [])
      | 76 => (s, if s_bcast s then [] else [Cmd c])               (* L *)
      | 81 => (s, [Cmd c])                                         (* Q *)
      | 82 => (s, if s_write s && s_can_reset s then [Cmd c] else [])  (* R *)
      | 90 => (s, [Cmd c; Cmd c])       (* Z: suspend, then resume *)
      | _ => (s, [])                                               (* . ? I E *)
      end
  end.

(** Nothing reaches the server after the close sequence. *)
Fixpoint until_close (ks : list key) : list key :=
  match ks with
  | [] => []
  | Escaped 46 :: _ => [Escaped 46]
  | k :: ks' => k :: until_close ks'
  end.

Fixpoint keys_meaning (esc : Z) (s : session) (ks : list key) : list item :=
  match ks with
  | [] => []
  | k :: ks' =>
      let '(s1, i1) := key_meaning esc s k in i1 ++ keys_meaning esc s1 ks'
  end.

(** How often each local action happens is determined by the keys as well. *)
Definition key_local (s : session) (k : key) : list local :=
  match k with
  | Escaped 46 => [LClose]
  | Escaped 63 => [LHelp]
  | Escaped 73 => [LInfo]
  | Escaped 69 => if s_write s then [LEcho] else []
  | Escaped 90 => [LSuspended]
  | _ => []
  end.

Fixpoint keys_local (esc : Z) (s : session) (ks : list key) : list local :=
  match ks with
  | [] => []
  | k :: ks' => key_local s k ++ keys_local esc (fst (key_meaning esc s k)) ks'
  end.

Definition start (write bcast can_reset echo quiet : bool) : tty :=
  mkTty MEol write bcast echo quiet can_reset false.
