(** The two writers that count what is open, with the counters as the machine has them: u32 for
    `nesting_level` of WkbWriter (wkb_writer.rs:28), usize, taken as 64 bits, for `open_contexts` of
    GeoJsonLineWriter (geojson_line_writer.rs:20).  WkbModel.v and GeoJsonModel.v count without bound and
    panic below zero; here [ck] says whether the crate is built with overflow checks (a panic) or without
    (the counter wraps).  All else is taken from those models. *)
From Coq Require Import String Ascii.
From Coq Require Import List NArith ZArith Lia Bool.
From Coq Require Import Init.Byte.
From Verif Require Import Base Float Event WkbModel GeoJsonModel.
Import ListNotations.
Local Open Scope N_scope.

Section Build.
  (** overflow checks *)
  Variable ck : bool.

  (** `n += 1` and `n -= 1` on an unsigned integer of [w] bits; None: a panic *)
  Definition up (w n : N) : option N :=
    if n + 1 <? 2 ^ w then Some (n + 1) else if ck then None else Some 0.
  Definition down (w n : N) : option N :=
    if 0 <? n then Some (n - 1) else if ck then None else Some (2 ^ w - 1).

  (** ** WkbWriter *)
  Variable c : wcfg.
  (** [s] with the counter as write_footer sees it, who asks if it is zero (wkb_writer.rs:259) *)
  Definition seen (l : N) : nat := if l =? 0 then 0%nat else 1%nat.
  Definition at_level (l : N) (s : wst) : wst := mkWst (w_first s) (w_state s) (seen l) (w_out s).
  (** the counter and the other fields; their own counter stays 0 *)
  Definition mstate := (N * wst)%type.
  Definition and_level (l : N) (r : wst * res unit) : mstate * res unit :=
    let (s, r) := r in ((l, at_level 0 s), r).
  (** wkb_writer.rs:269-439 *)
  Definition wkb_step_m (q : mstate) (e : event) : mstate * res unit :=
    let (l, s) := q in
    match e with
    | MultiPointBegin _ _ | MultiLineStringBegin _ _ | MultiPolygonBegin _ _ | CollectionBegin _ _
    | MultiCurveBegin _ _ | MultiSurfaceBegin _ _ =>                 (* 308, 330, 350, 360, 394, 404 *)
        match up 32 l with
        | Some l' => and_level l' (wkb_step c s e)
        | None => (q, Err EPanic)
        end
    | MultiPointEnd _ | MultiLineStringEnd _ | MultiPolygonEnd _ | CollectionEnd _
    | MultiCurveEnd _ | MultiSurfaceEnd _ =>                         (* 315, 336, 356, 366, 400, 410 *)
        match down 32 l with
        | Some l' => and_level l' (wkb_step c (nest_incr (at_level l' s)) e)
        | None => (q, Err EPanic)
        end
    | _ => and_level l (wkb_step c (at_level l s) e)
    end.
  Definition wkb_writer_m : proc mstate := mkProc (w_read_dims c) wkb_step_m default_prop.

  (** ** GeoJsonLineWriter *)
  Variable fmt32 : N -> string.
  Variable fmt : f64 -> string.
  Definition lmstate := (N * string)%type.
  Definition lw_inner_m (s : lmstate) (e : event) : lmstate * res unit :=
    let (out, r) := gj_step fmt (snd s) e in ((fst s, out), r).
  (** geojson_line_writer.rs:37-39 *)
  Definition begin_context_m (s : lmstate) (k : lmstate -> lmstate * res unit) : lmstate * res unit :=
    match up 64 (fst s) with Some n => k (n, snd s) | None => (s, Err EPanic) end.
  (** geojson_line_writer.rs:41-47 *)
  Definition end_context_m (s : lmstate) : lmstate * res unit :=
    match down 64 (fst s) with
    | None => (s, Err EPanic)
    | Some n => ((n, if n =? 0 then (snd s ++ nl)%string else snd s), Ok tt)
    end.
  (** the pattern of 117-222 *)
  Definition line_begin_m (s : lmstate) (idx : nat) (e : event) : lmstate * res unit :=
    let out := if (0 <? fst s) && Nat.ltb 0 idx then (snd s ++ ",")%string else snd s in
    begin_context_m (fst s, out) (fun s => lw_inner_m s e).
  Definition line_end_m (s : lmstate) (e : event) : lmstate * res unit :=
    match lw_inner_m s e with
    | (s', Ok _) => end_context_m s'
    | (s', Err x) => (s', Err x)
    end.
  (** geojson_line_writer.rs:56-225 *)
  Definition gjl_step_m (s : lmstate) (e : event) : lmstate * res unit :=
    match e with
    | FeatureBegin _ => begin_context_m s (fun s => lw_inner_m s (FeatureBegin 0))   (* 57-62 *)
    | FeatureEnd _ => line_end_m s e                                           (* 64-68 *)
    | PropertiesBegin | PropertiesEnd | GeometryBegin | GeometryEnd            (* 70-84 *)
    | Xy _ _ _ | Coord _ _ _ _ _ _ _ => lw_inner_m s e                         (* 92-107 *)
    | EmptyPoint idx =>                                                        (* 118-126 *)
        match line_begin_m s idx (EmptyPoint 0) with
        | (s', Ok _) => end_context_m s'
        | (s', Err x) => (s', Err x)
        end
    | PointBegin idx => line_begin_m s idx (PointBegin 0)                      (* 128-135 *)
    | PointEnd _ => line_end_m s e                                             (* 137-140 *)
    | MultiPointBegin n idx => line_begin_m s idx (MultiPointBegin n 0)        (* 142-149 *)
    | MultiPointEnd _ => line_end_m s e
    | LineStringBegin t n idx => line_begin_m s idx (LineStringBegin t n 0)    (* 156-163 *)
    | LineStringEnd _ _ => line_end_m s e
    | MultiLineStringBegin n idx => line_begin_m s idx (MultiLineStringBegin n 0)  (* 170-177 *)
    | MultiLineStringEnd _ => line_end_m s e
    | PolygonBegin t n idx => line_begin_m s idx (PolygonBegin t n 0)          (* 184-191 *)
    | PolygonEnd _ _ => line_end_m s e
    | MultiPolygonBegin n idx => line_begin_m s idx (MultiPolygonBegin n 0)    (* 198-205 *)
    | MultiPolygonEnd _ => line_end_m s e
    | CollectionBegin n idx => line_begin_m s idx (CollectionBegin n 0)        (* 212-219 *)
    | CollectionEnd _ => line_end_m s e
    | e => default_step s e
    end.
  (** geojson_line_writer.rs:227-231 *)
  Definition gjl_prop_m (s : lmstate) (i : nat) (n : string) (v : colval) : lmstate * res bool :=
    let (out, r) := gj_prop fmt32 fmt (snd s) i n v in ((fst s, out), r).
  Definition geojson_line_writer_m : proc lmstate := mkProc xy_dims gjl_step_m gjl_prop_m.
End Build.
