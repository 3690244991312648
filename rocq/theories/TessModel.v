(** Model of /repo/geozero/src/tessellator/mod.rs.  The crate lyon (1.0.19) is not modelled: what it
    makes of a path is an argument.  f32 is a bit pattern (N); `as f32` is an argument. *)
From Coq Require Import String Ascii.
From Coq Require Import List NArith ZArith Lia Bool.
From Verif Require Import Base Event Geom.
Import ListNotations.
Local Open Scope N_scope.
Local Open Scope list_scope.

Definition point32 : Type := (N * N)%type.
(** the calls made on lyon's path builder *)
Inductive pathev := PBegin (p : point32) | PLine (p : point32) | PClose.
(** What lyon does.  [checks]: the builder asserts (debug builds) that calls come in order and that
    positions are acceptable.  [fill] gives the vertices, in the order of the callbacks, and the
    index buffer. *)
Record lyon := mkLyon {
  checks : bool;
  point_ok : point32 -> bool;
  fill : list pathev -> res (list point32 * list N);
  stroke : list pathev -> res unit
}.
(** calls on the VertexOutput (mod.rs:14-17); z is 0.0 *)
Inductive out := OVertex (p : point32) | OTriangle (a b c : N).

(** mod.rs:20-25.  num_rings is written only.  [ts_open]: the builder is inside a sub path. *)
Record ts := mkTs { ts_started : bool; ts_path : list pathev; ts_open : bool; ts_out : list out }.
Definition ts_init : ts := mkTs false [] false [].

(** a list in threes; `tri[2]` panics if something is left over (mod.rs:124-126) *)
Fixpoint threes (l : list N) : res (list out) :=
  match l with
  | [] => Ok []
  | a :: b :: c :: r => match threes r with Ok t => Ok (OTriangle a b c :: t) | Err e => Err e end
  | _ => Err EPanic
  end.

Section Tess.
  Variable narrow : f64 -> N.
  Variable ly : lyon.
  Definition pos32 (x y : f64) : point32 := (narrow x, narrow y).
  (** Builder::begin, line_to, close *)
  Definition b_begin (p : point32) (s : ts) : ts * res unit :=
    if checks ly && (ts_open s || negb (point_ok ly p)) then (s, Err EPanic)
    else (mkTs (ts_started s) (ts_path s ++ [PBegin p]) true (ts_out s), Ok tt).
  Definition b_line (p : point32) (s : ts) : ts * res unit :=
    if checks ly && negb (ts_open s && point_ok ly p) then (s, Err EPanic)
    else (mkTs (ts_started s) (ts_path s ++ [PLine p]) (ts_open s) (ts_out s), Ok tt).
  Definition b_close (s : ts) : ts * res unit :=
    if checks ly && negb (ts_open s) then (s, Err EPanic)
    else (mkTs (ts_started s) (ts_path s ++ [PClose]) false (ts_out s), Ok tt).
  Definition set_started (b : bool) (s : ts) : ts := mkTs b (ts_path s) (ts_open s) (ts_out s).
  Definition fresh (s : ts) : ts := mkTs (ts_started s) [] false (ts_out s).
  (** `if self.has_started { self.has_started = false; builder.close(); }` *)
  Definition close_started (s : ts) : ts * res unit :=
    if ts_started s then b_close (set_started false s) else (s, Ok tt).
  (** mod.rs:98-109 (tessellate_line); what is printed on the standard output is not modelled *)
  Definition tessellate_line (s : ts) : ts * res unit :=
    if checks ly && ts_open s then (s, Err EPanic)
    else match stroke ly (ts_path s) with Ok _ => (fresh s, Ok tt) | Err _ => (s, Err EPanic) end.
  (** mod.rs:111-127 (tessellate_poly) *)
  Definition tessellate_poly (s : ts) : ts * res unit :=
    if checks ly && ts_open s then (s, Err EPanic)
    else match fill ly (ts_path s) with
         | Ok (vs, idx) =>
             match threes idx with
             | Ok t => (mkTs (ts_started s) [] false (ts_out s ++ map OVertex vs ++ t), Ok tt)
             | Err e => (s, Err e)
             end
         | Err _ => (s, Err EPanic)
         end.
  Definition andthen (r : ts * res unit) (f : ts -> ts * res unit) : ts * res unit :=
    match r with (s, Ok _) => f s | (s, Err e) => (s, Err e) end.

  (** mod.rs:38-96 *)
  Definition tess_step (s : ts) (e : event) : ts * res unit :=
    match e with
    | Xy x y i =>                                                                     (* 39-47 *)
        if Nat.eqb i 0 then b_begin (pos32 x y) (set_started true s) else b_line (pos32 x y) s
    | LineStringEnd tagged _ =>                                                       (* 66-76 *)
        andthen (close_started s) (fun s => if tagged then tessellate_line s else (s, Ok tt))
    | PolygonEnd _ _ => andthen (close_started s) tessellate_poly                     (* 87-95 *)
    | _ => default_step s e
    end.
  Definition tessellator : proc ts := mkProc xy_dims tess_step default_prop.
End Tess.

(** ** OBJ: mod.rs:132-142 *)
Inductive obj_line := OV (x y z : N) | OF (a b c : N).
Section Obj.
  (** overflow checks on: `idx + 1` panics at 65535 *)
  Variable overflow_checks : bool.
  Definition next16 (i : N) : res N :=
    if i + 1 <? 2 ^ 16 then Ok (i + 1) else if overflow_checks then Err EPanic else Ok 0.
  Definition obj_of (o : out) : res obj_line :=
    match o with
    | OVertex (x, y) => Ok (OV x y 0)
    | OTriangle a b c =>
        match next16 a, next16 b, next16 c with
        | Ok a, Ok b, Ok c => Ok (OF a b c)
        | _, _, _ => Err EPanic
        end
    end.
  Fixpoint obj_lines (l : list out) : res (list obj_line) :=
    match l with
    | [] => Ok []
    | o :: r =>
        match obj_of o with
        | Ok x => match obj_lines r with Ok t => Ok (x :: t) | Err e => Err e end
        | Err e => Err e
        end
    end.
End Obj.
