(** A reference parser for the part of XML that matters here (specification side): elements with
    attributes in double quotes, character data, processing instructions; no entities. *)
From Coq Require Import String Ascii.
From Coq Require Import List NArith Bool.
Import ListNotations.
Local Open Scope string_scope.
Local Open Scope list_scope.

(** character data is a sequence of single characters *)
Inductive node : Type :=
| Ch (c : ascii)
| Elem (name : string) (attrs : list (string * string)) (kids : list node).
Definition chars (s : string) : list node := map Ch (list_ascii_of_string s).

Inductive xtoken : Type :=
| XOpen (name : string) (attrs : list (string * string))
| XEmpty (name : string) (attrs : list (string * string))
| XClose (name : string)
| XChar (c : ascii).

Definition eqc (c : ascii) (n : N) : bool := N.eqb (N_of_ascii c) n.
Definition lt_c c := eqc c 60.
Definition gt_c c := eqc c 62.
Definition amp_c c := eqc c 38.
Definition quot_c c := eqc c 34.
Definition slash_c c := eqc c 47.
Definition ques_c c := eqc c 63.
Definition eq_c c := eqc c 61.
Definition blank c := eqc c 32 || eqc c 9 || eqc c 10 || eqc c 13.
(** part of a tag or attribute name *)
Definition name_c (c : ascii) : bool :=
  let n := N_of_ascii c in
  ((97 <=? n) && (n <=? 122) || (65 <=? n) && (n <=? 90) || (48 <=? n) && (n <=? 57) ||
   (n =? 45) || (n =? 58) || (n =? 95))%N.
(** characters that stand for themselves in content and in attribute values *)
Definition plain_c (c : ascii) : bool := negb (lt_c c) && negb (amp_c c) && negb (quot_c c).
Fixpoint xml_plain (s : string) : bool :=
  match s with "" => true | String c r => plain_c c && xml_plain r end.
(** characters that stand for themselves in content: quotes, too *)
Fixpoint content_plain (s : string) : bool :=
  match s with "" => true | String c r => negb (lt_c c) && negb (amp_c c) && content_plain r end.

(** ** Tokens *)
Inductive xstate : Type :=
| SContent
| SLess                                                       (* after < *)
| SPi                                                         (* inside <? ... > *)
| SName (n : string)                                          (* inside a name *)
| SCloseName (n : string)
| SAttrs (n : string) (a : list (string * string))            (* before an attribute or the end *)
| SAttr (n : string) (a : list (string * string)) (k : string)     (* inside an attribute name *)
| SEquals (n : string) (a : list (string * string)) (k : string)   (* after = *)
| SValue (n : string) (a : list (string * string)) (k v : string)  (* inside the quotes *)
| SAfter (n : string) (a : list (string * string))            (* after the closing quote *)
| SSlash (n : string) (a : list (string * string)).           (* after the final / *)

Definition snoc (s : string) (c : ascii) : string := (s ++ String c "")%string.
Definition xml_step (s : xstate) (c : ascii) : option (xstate * list xtoken) :=
  match s with
  | SContent =>
      if lt_c c then Some (SLess, []) else if amp_c c then None else Some (SContent, [XChar c])
  | SLess =>
      if ques_c c then Some (SPi, [])
      else if slash_c c then Some (SCloseName "", [])
      else if name_c c then Some (SName (snoc "" c), []) else None
  | SPi => Some (if gt_c c then SContent else SPi, [])
  | SName n =>
      if name_c c then Some (SName (snoc n c), [])
      else if blank c then Some (SAttrs n [], [])
      else if gt_c c then Some (SContent, [XOpen n []])
      else if slash_c c then Some (SSlash n [], []) else None
  | SCloseName n =>
      if name_c c then Some (SCloseName (snoc n c), [])
      else if gt_c c then Some (SContent, [XClose n]) else None
  | SAttrs n a =>
      if blank c then Some (SAttrs n a, [])
      else if name_c c then Some (SAttr n a (snoc "" c), [])
      else if gt_c c then Some (SContent, [XOpen n a])
      else if slash_c c then Some (SSlash n a, []) else None
  | SAttr n a k =>
      if name_c c then Some (SAttr n a (snoc k c), [])
      else if eq_c c then Some (SEquals n a k, []) else None
  | SEquals n a k => if quot_c c then Some (SValue n a k "", []) else None
  | SValue n a k v =>
      if quot_c c then Some (SAfter n (a ++ [(k, v)]), [])
      else if lt_c c || amp_c c then None else Some (SValue n a k (snoc v c), [])
  | SAfter n a =>
      if blank c then Some (SAttrs n a, [])
      else if gt_c c then Some (SContent, [XOpen n a])
      else if slash_c c then Some (SSlash n a, []) else None
  | SSlash n a => if gt_c c then Some (SContent, [XEmpty n a]) else None
  end.
Fixpoint xml_lex (s : xstate) (t : string) : option (xstate * list xtoken) :=
  match t with
  | "" => Some (s, [])
  | String c r =>
      match xml_step s c with
      | Some (s', ts) =>
          match xml_lex s' r with Some (s'', ts') => Some (s'', ts ++ ts') | None => None end
      | None => None
      end
  end.

(** ** Elements: the open elements, innermost first, with what they contain so far, and the nodes
    before and between the outermost elements *)
Definition xframe := (string * list (string * string) * list node)%type.
Definition xml_add (n : node) (st : list xframe * list node) : list xframe * list node :=
  match st with
  | ([], top) => ([], top ++ [n])
  | ((k, a, kids) :: r, top) => ((k, a, kids ++ [n]) :: r, top)
  end.
Definition xml_build (st : list xframe * list node) (t : xtoken) : option (list xframe * list node) :=
  match t with
  | XChar c => Some (xml_add (Ch c) st)
  | XEmpty n a => Some (xml_add (Elem n a []) st)
  | XOpen n a => Some ((n, a, []) :: fst st, snd st)
  | XClose n =>
      match fst st with
      | (k, a, kids) :: r => if String.eqb n k then Some (xml_add (Elem k a kids) (r, snd st)) else None
      | [] => None
      end
  end.
Fixpoint xml_tree (st : list xframe * list node) (l : list xtoken) : option (list xframe * list node) :=
  match l with
  | [] => Some st
  | t :: r => match xml_build st t with Some st' => xml_tree st' r | None => None end
  end.
(** the nodes of a text; [None]: not well formed *)
Definition parse_xml (t : string) : option (list node) :=
  match xml_lex SContent t with
  | Some (SContent, ts) => match xml_tree ([], []) ts with Some ([], top) => Some top | _ => None end
  | _ => None
  end.
