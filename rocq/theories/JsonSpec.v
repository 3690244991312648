(** JSON (RFC 8259): values and a reference parser.  Specification side: nothing here is taken from
    geozero.  Text is a sequence of bytes; bytes above 0x7F are passed through (UTF-8 is not checked).
    An object keeps its members in order, duplicates included; a number keeps its text. *)
From Coq Require Import String Ascii.
From Coq Require Import List NArith ZArith Lia Bool.
Import ListNotations.
Local Open Scope string_scope.
Local Open Scope list_scope.

Inductive json : Type :=
| JNull
| JBool (b : bool)
| JNum (t : string)
| JStr (s : string)
| JArr (l : list json)
| JObj (l : list (string * json)).

(** ** Characters *)
Definition code (c : ascii) : N := N_of_ascii c.
Definition chr (n : N) : ascii := ascii_of_N n.
Definition is_space (c : ascii) : bool :=
  match code c with 32%N | 9%N | 10%N | 13%N => true | _ => false end.
Definition is_punct (c : ascii) : bool :=
  match c with
  | "{"%char | "}"%char | "["%char | "]"%char | ","%char | ":"%char => true
  | _ => false
  end.
Definition is_quote (c : ascii) : bool := N.eqb (code c) 34.
Definition is_backslash (c : ascii) : bool := N.eqb (code c) 92.
Definition is_control (c : ascii) : bool := N.ltb (code c) 32.
(** part of a number or of true, false, null *)
Definition is_word (c : ascii) : bool := negb (is_space c) && negb (is_punct c) && negb (is_quote c).

Definition is_digit (c : ascii) : bool := N.leb 48 (code c) && N.leb (code c) 57.
Definition hex_value (c : ascii) : option N :=
  let n := code c in
  if N.leb 48 n && N.leb n 57 then Some (n - 48)%N
  else if N.leb 97 n && N.leb n 102 then Some (n - 87)%N
  else if N.leb 65 n && N.leb n 70 then Some (n - 55)%N
  else None.

(** no backslash and no control character *)
Fixpoint plain_text (t : string) : bool :=
  match t with
  | "" => true
  | String c r => negb (is_backslash c) && negb (is_control c) && plain_text r
  end.

(** ** Numbers: -? (0 | [1-9][0-9]* ) ('.' [0-9]+)? ([eE] [+-]? [0-9]+)? *)
Inductive nstate := NStart | NSign | NZero | NInt | NPoint | NFrac | NE | NESign | NExp.
Definition num_step (s : nstate) (c : ascii) : option nstate :=
  let d := is_digit c in
  let zero := N.eqb (code c) 48 in
  let point := N.eqb (code c) 46 in
  let e := N.eqb (code c) 101 || N.eqb (code c) 69 in
  let minus := N.eqb (code c) 45 in
  let plus := N.eqb (code c) 43 in
  match s with
  | NStart => if minus then Some NSign else if zero then Some NZero else if d then Some NInt else None
  | NSign => if zero then Some NZero else if d then Some NInt else None
  | NZero => if point then Some NPoint else if e then Some NE else None
  | NInt => if d then Some NInt else if point then Some NPoint else if e then Some NE else None
  | NPoint => if d then Some NFrac else None
  | NFrac => if d then Some NFrac else if e then Some NE else None
  | NE => if plus || minus then Some NESign else if d then Some NExp else None
  | NESign => if d then Some NExp else None
  | NExp => if d then Some NExp else None
  end.
Fixpoint num_run (s : nstate) (t : string) : bool :=
  match t with
  | "" => match s with NZero | NInt | NFrac | NExp => true | _ => false end
  | String c r => match num_step s c with Some s' => num_run s' r | None => false end
  end.
Definition json_number (t : string) : bool := num_run NStart t.

(** ** Tokens *)
Inductive token :=
| KPunct (c : ascii)
| KStr (s : string)
| KNum (t : string)
| KTrue | KFalse | KNull.

Definition classify (w : string) : option token :=
  if String.eqb w "true" then Some KTrue
  else if String.eqb w "false" then Some KFalse
  else if String.eqb w "null" then Some KNull
  else if json_number w then Some (KNum w)
  else None.

(** UTF-8 encoding of a code point *)
Definition utf8 (n : N) : string :=
  (if n <? 0x80 then String (chr n) ""
   else if n <? 0x800 then String (chr (0xC0 + n / 64)) (String (chr (0x80 + n mod 64)) "")
   else if n <? 0x10000 then
     String (chr (0xE0 + n / 4096)) (String (chr (0x80 + n / 64 mod 64)) (String (chr (0x80 + n mod 64)) ""))
   else
     String (chr (0xF0 + n / 262144)) (String (chr (0x80 + n / 4096 mod 64))
       (String (chr (0x80 + n / 64 mod 64)) (String (chr (0x80 + n mod 64)) ""))))%N.

(** Where the lexer is: between tokens, in a word, in a string, after a backslash, in a \u escape
    ([hi]: the high surrogate before it, [k] digits read, value so far), after a high surrogate. *)
Inductive lmode :=
| LIdle
| LWord (w : string)
| LStr (acc : string)
| LEsc (acc : string)
| LHex (acc : string) (hi : option N) (k : nat) (v : N)
| LSur (acc : string) (hi : N)
| LSurEsc (acc : string) (hi : N).

Definition snoc (s : string) (c : ascii) : string := s ++ String c "".

Definition lstate := (list token * lmode)%type.

(** finish a pending word *)
Definition flush (s : lstate) : option (list token) :=
  match s with
  | (ts, LIdle) => Some ts
  | (ts, LWord w) => match classify w with Some t => Some (ts ++ [t]) | None => None end
  | _ => None
  end.

Definition idle_step (ts : list token) (c : ascii) : lstate :=
  if is_space c then (ts, LIdle)
  else if is_punct c then (ts ++ [KPunct c], LIdle)
  else if is_quote c then (ts, LStr "")
  else (ts, LWord (String c "")).

Definition hex_done (acc : string) (hi : option N) (v : N) : option lmode :=
  match hi with
  | None =>
      if ((0xD800 <=? v) && (v <? 0xDC00))%N then Some (LSur acc v)
      else if ((0xDC00 <=? v) && (v <? 0xE000))%N then None
      else Some (LStr (acc ++ utf8 v))
  | Some h =>
      if ((0xDC00 <=? v) && (v <? 0xE000))%N
      then Some (LStr (acc ++ utf8 (0x10000 + (h - 0xD800) * 1024 + (v - 0xDC00))))
      else None
  end.

Definition escaped (c : ascii) : option ascii :=
  match c with
  | """"%char => Some """"%char
  | "\"%char => Some "\"%char
  | "/"%char => Some "/"%char
  | "b"%char => Some (chr 8)
  | "f"%char => Some (chr 12)
  | "n"%char => Some (chr 10)
  | "r"%char => Some (chr 13)
  | "t"%char => Some (chr 9)
  | _ => None
  end.

Definition lex_step (s : lstate) (c : ascii) : option lstate :=
  let (ts, m) := s in
  match m with
  | LIdle => Some (idle_step ts c)
  | LWord w =>
      if is_word c then Some (ts, LWord (snoc w c))
      else match flush s with Some ts' => Some (idle_step ts' c) | None => None end
  | LStr acc =>
      if is_quote c then Some (ts ++ [KStr acc], LIdle)
      else if is_backslash c then Some (ts, LEsc acc)
      else if is_control c then None
      else Some (ts, LStr (snoc acc c))
  | LEsc acc =>
      match escaped c with
      | Some d => Some (ts, LStr (snoc acc d))
      | None => if Ascii.eqb c "u" then Some (ts, LHex acc None 0 0) else None
      end
  | LHex acc hi k v =>
      match hex_value c with
      | None => None
      | Some d =>
          let v := (v * 16 + d)%N in
          match k with
          | 3%nat => match hex_done acc hi v with Some m => Some (ts, m) | None => None end
          | _ => Some (ts, LHex acc hi (S k) v)
          end
      end
  | LSur acc hi => if is_backslash c then Some (ts, LSurEsc acc hi) else None
  | LSurEsc acc hi => if Ascii.eqb c "u" then Some (ts, LHex acc (Some hi) 0 0) else None
  end.

Fixpoint lex_run (t : string) (s : lstate) : option lstate :=
  match t with
  | "" => Some s
  | String c r => match lex_step s c with Some s' => lex_run r s' | None => None end
  end.

Definition lex (t : string) : option (list token) :=
  match lex_run t ([], LIdle) with Some s => flush s | None => None end.

(** ** Grammar: a pushdown automaton.  A frame is an open array or object (with its last key). *)
Inductive frame := FArr (l : list json) | FObj (l : list (string * json)) (key : string).
(** what may come next *)
Inductive pmode :=
| MValue      (* a value *)
| MFirst      (* a value or ] *)
| MKey        (* a key *)
| MFirstKey   (* a key or } *)
| MColon
| MAfter      (* , or the closing bracket *)
| MEnd (v : json).

Definition pstate := (pmode * list frame)%type.

(** a value is complete *)
Definition attach (v : json) (st : list frame) : pstate :=
  match st with
  | [] => (MEnd v, [])
  | FArr l :: r => (MAfter, FArr (l ++ [v]) :: r)
  | FObj l k :: r => (MAfter, FObj (l ++ [(k, v)]) "" :: r)
  end.

Definition value_step (st : list frame) (t : token) : option pstate :=
  match t with
  | KStr s => Some (attach (JStr s) st)
  | KNum n => Some (attach (JNum n) st)
  | KTrue => Some (attach (JBool true) st)
  | KFalse => Some (attach (JBool false) st)
  | KNull => Some (attach JNull st)
  | KPunct "["%char => Some (MFirst, FArr [] :: st)
  | KPunct "{"%char => Some (MFirstKey, FObj [] "" :: st)
  | KPunct _ => None
  end.
Definition close_step (st : list frame) (t : token) : option pstate :=
  match st, t with
  | FArr l :: r, KPunct "]"%char => Some (attach (JArr l) r)
  | FObj l _ :: r, KPunct "}"%char => Some (attach (JObj l) r)
  | _, _ => None
  end.
Definition key_step (st : list frame) (t : token) : option pstate :=
  match st, t with
  | FObj l _ :: r, KStr k => Some (MColon, FObj l k :: r)
  | _, _ => None
  end.

Definition pda_step (s : pstate) (t : token) : option pstate :=
  let (m, st) := s in
  match m with
  | MValue => value_step st t
  | MFirst => match close_step st t with Some s' => Some s' | None => value_step st t end
  | MKey => key_step st t
  | MFirstKey => match close_step st t with Some s' => Some s' | None => key_step st t end
  | MColon => match t with KPunct ":"%char => Some (MValue, st) | _ => None end
  | MAfter =>
      match t, st with
      | KPunct ","%char, FArr _ :: _ => Some (MValue, st)
      | KPunct ","%char, FObj _ _ :: _ => Some (MKey, st)
      | _, _ => close_step st t
      end
  | MEnd _ => None
  end.

Fixpoint pda_run (l : list token) (s : pstate) : option pstate :=
  match l with
  | [] => Some s
  | t :: r => match pda_step s t with Some s' => pda_run r s' | None => None end
  end.

(** The value of a text. *)
Definition parse_json (t : string) : option json :=
  match lex t with
  | Some l => match pda_run l (MValue, []) with Some (MEnd v, []) => Some v | _ => None end
  | None => None
  end.
