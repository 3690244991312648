(** Model of /repo/geozero/src/csv: CsvWriter and the readers of CSV records.  The crate csv (quoting,
    parsing) is not modelled: the writer produces records, the readers take the header and the
    records the crate returns. *)
From Coq Require Import String Ascii.
From Coq Require Import List NArith ZArith Lia Bool.
From Verif Require Import Base Event Geom ProcModel WktModel.
Import ListNotations.
Local Open Scope string_scope.
Local Open Scope list_scope.

(** csv::Writer with the default options (not flexible): the fields of the record being written, the
    records written, and the number of fields every record must have *)
Record csvout := mkCsvOut {
  o_fields : list string;
  o_records : list (list string);
  o_count : option nat
}.
Definition csv_out_init : csvout := mkCsvOut [] [] None.
Definition csv_write_field (o : csvout) (f : string) : csvout :=
  mkCsvOut (o_fields o ++ [f]) (o_records o) (o_count o).
(** write_record: the given fields, then the end of the record; a record with another number of
    fields than the first is an error (ErrorKind::UnequalLengths, converted to
    GeozeroError::Dataset by csv_reader.rs:204-215) *)
Definition csv_write_record (o : csvout) (l : list string) : csvout * res unit :=
  let o := fold_left csv_write_field l o in
  let n := length (o_fields o) in
  match o_count o with
  | None => (mkCsvOut [] (o_records o ++ [o_fields o]) (Some n), Ok tt)
  | Some k =>
      if Nat.eqb k n then (mkCsvOut [] (o_records o ++ [o_fields o]) (Some k), Ok tt)
      else (o, Err EDataset)
  end.

(** csv_writer.rs:7-13 *)
Record csvst := mkCsv {
  cs_csv : csvout;
  cs_headers : list string;
  cs_written : bool;              (* has_written_first_record *)
  cs_row : list string;           (* current_row_props *)
  cs_wkt : wktst
}.

Section Writer.
  (** `{v}` for an f32 and an f64 (std::fmt::Display), not modelled further *)
  Variable fmt32 : N -> string.
  Variable fmt : f64 -> string.
  (** debug assertions enabled *)
  Variable debug : bool.
  Variable d : dims.

  (** csv_writer.rs:16-28 *)
  Definition csv_init : csvst := mkCsv csv_out_init ["geometry"] false [] (wkt_init None).
  Definition csv_assert (b : bool) (s : csvst) : csvst * res unit :=
    if debug && negb b then (s, Err EPanic) else (s, Ok tt).

  (** csv_writer.rs:30-32 *)
  Definition geometry_started (s : csvst) : bool := negb (String.eqb (k_out (cs_wkt s)) "").
  (** csv_writer.rs:34-41 *)
  Definition offset_geom_idx (s : csvst) (idx : nat) : nat := if geometry_started s then idx else 0.

  (** a callback of the inner WktWriter (dialect Wkt) *)
  Definition csv_wkt (s : csvst) (e : event) : csvst * res unit :=
    let (w, r) := wkt_step fmt (mkWktCfg d PlainWkt) (cs_wkt s) e in
    (mkCsv (cs_csv s) (cs_headers s) (cs_written s) (cs_row s) w, r).

  (** csv_writer.rs:58-75 *)
  Definition csv_feature_end (s : csvst) : csvst * res unit :=
    match (if cs_written s then (cs_csv s, Ok tt) else csv_write_record (cs_csv s) (cs_headers s)) with
    | (o, Err e) => (mkCsv o (cs_headers s) true (cs_row s) (cs_wkt s), Err e)
    | (o, Ok _) =>
        let o := csv_write_field o (k_out (cs_wkt s)) in
        let w := mkWktSt (k_srid (cs_wkt s)) (k_first (cs_wkt s)) (k_sizes (cs_wkt s)) "" in
        let o := fold_left csv_write_field (cs_row s) o in
        match csv_write_record o [] with
        | (o, Err e) => (mkCsv o (cs_headers s) true (cs_row s) w, Err e)
        | (o, Ok _) => (mkCsv o (cs_headers s) true [] w, Ok tt)
        end
    end.

  (** csv_writer.rs:44-90 and 111-245; srid is the trait default *)
  Definition csv_step (s : csvst) (e : event) : csvst * res unit :=
    let at_ idx := offset_geom_idx s idx in
    match e with
    | DatasetBegin _ =>                                                        (* 45-48 *)
        csv_assert (if list_eq_dec string_dec (cs_headers s) ["geometry"] then true else false) s
    | DatasetEnd =>                                                            (* 49-52 *)
        (mkCsv (cs_csv s) ["geometry"] (cs_written s) (cs_row s) (cs_wkt s), Ok tt)
    | FeatureBegin _ | PropertiesBegin =>                                      (* 53-56, 76-79 *)
        csv_assert (match cs_row s with [] => true | _ => false end) s
    | FeatureEnd _ => csv_feature_end s
    | PropertiesEnd | GeometryEnd => (s, Ok tt)                                (* 80-82, 87-89 *)
    | GeometryBegin => csv_assert (negb (geometry_started s)) s                (* 83-86 *)
    | Xy _ _ _ | Coord _ _ _ _ _ _ _ => csv_wkt s e                            (* 115-130 *)
    | EmptyPoint idx => csv_wkt s (EmptyPoint (at_ idx))                       (* 132-134 *)
    | PointBegin idx => csv_wkt s (PointBegin (at_ idx))
    | PointEnd idx => csv_wkt s (PointEnd (at_ idx))
    | MultiPointBegin n idx => csv_wkt s (MultiPointBegin n (at_ idx))
    | MultiPointEnd idx => csv_wkt s (MultiPointEnd (at_ idx))
    | LineStringBegin t n idx => csv_wkt s (LineStringBegin t n (at_ idx))
    | LineStringEnd t idx => csv_wkt s (LineStringEnd t (at_ idx))
    | MultiLineStringBegin n idx => csv_wkt s (MultiLineStringBegin n (at_ idx))
    | MultiLineStringEnd idx => csv_wkt s (MultiLineStringEnd (at_ idx))
    | PolygonBegin t n idx => csv_wkt s (PolygonBegin t n (at_ idx))
    | PolygonEnd t idx => csv_wkt s (PolygonEnd t (at_ idx))
    | MultiPolygonBegin n idx => csv_wkt s (MultiPolygonBegin n (at_ idx))
    | MultiPolygonEnd idx => csv_wkt s (MultiPolygonEnd (at_ idx))
    | CollectionBegin n idx => csv_wkt s (CollectionBegin n (at_ idx))
    | CollectionEnd idx => csv_wkt s (CollectionEnd (at_ idx))
    | CircularStringBegin n idx => csv_wkt s (CircularStringBegin n (at_ idx))
    | CircularStringEnd idx => csv_wkt s (CircularStringEnd (at_ idx))
    | CompoundCurveBegin n idx => csv_wkt s (CompoundCurveBegin n (at_ idx))
    | CompoundCurveEnd idx => csv_wkt s (CompoundCurveEnd (at_ idx))
    | CurvePolygonBegin n idx => csv_wkt s (CurvePolygonBegin n (at_ idx))
    | CurvePolygonEnd idx => csv_wkt s (CurvePolygonEnd (at_ idx))
    | MultiCurveBegin n idx => csv_wkt s (MultiCurveBegin n (at_ idx))
    | MultiCurveEnd idx => csv_wkt s (MultiCurveEnd (at_ idx))
    | MultiSurfaceBegin n idx => csv_wkt s (MultiSurfaceBegin n (at_ idx))
    | MultiSurfaceEnd idx => csv_wkt s (MultiSurfaceEnd (at_ idx))
    | TriangleBegin t n idx => csv_wkt s (TriangleBegin t n (at_ idx))
    | TriangleEnd t idx => csv_wkt s (TriangleEnd t (at_ idx))
    | PolyhedralSurfaceBegin n idx => csv_wkt s (PolyhedralSurfaceBegin n (at_ idx))
    | PolyhedralSurfaceEnd idx => csv_wkt s (PolyhedralSurfaceEnd (at_ idx))
    | TinBegin n idx => csv_wkt s (TinBegin n (at_ idx))
    | TinEnd idx => csv_wkt s (TinEnd (at_ idx))
    | e => default_step s e
    end.

  (** csv_writer.rs:93-108; the index and the assert_eq panic *)
  Definition csv_prop (s : csvst) (i : nat) (n : string) (v : colval) : csvst * res bool :=
    let push h := (mkCsv (cs_csv s) h (cs_written s) (cs_row s ++ [show_colval fmt32 fmt v]) (cs_wkt s), Ok false) in
    if cs_written s then
      match nth_error (cs_headers s) (i + 1) with
      | Some h => if String.eqb n h then push (cs_headers s) else (s, Err EPanic)
      | None => (s, Err EPanic)
      end
    else push (cs_headers s ++ [n]).

  Definition csv_writer : proc csvst := mkProc d csv_step csv_prop.
End Writer.

(** mod.rs:20-30 (ToCsv::to_csv): the records of the text; nothing is left in the buffer of csv::Writer
    when it is dropped *)
Definition to_csv {A} (fmt32 : N -> string) (fmt : f64 -> string) (debug : bool) (src : dims -> prog A)
    : res (list (list string)) :=
  match exec (csv_writer fmt32 fmt debug xy_dims) (src xy_dims) csv_init with
  | (s, Ok _) => Ok (o_records (cs_csv s))
  | (_, Err e) => Err e
  end.

Section Reader.
  (** wkt::Wkt::from_str; [None]: an error *)
  Variable parse : string -> option wkt.
  (** processor.multi_dim() *)
  Variable multi : bool.

  Fixpoint position_of (i : nat) (name : string) (l : list string) : option nat :=
    match l with
    | [] => None
    | h :: r => if String.eqb h name then Some i else position_of (S i) name r
    end.
  (** wkt_reader.rs:82-89 *)
  Definition read_wkt (t : string) : prog unit :=
    match parse t with Some w => process_wkt_geom_n multi 0 w | None => pfail EGeometry end.

  (** csv_reader.rs:169-175: (header, value) of the columns other than [gi] *)
  Definition csv_columns (gi : nat) (headers record : list string) : list (string * string) :=
    map snd (filter (fun p => negb (Nat.eqb (fst p) gi))
                    (combine (seq 0 (length headers)) (combine headers record))).

  (** csv_reader.rs:163-199 *)
  Definition csv_feature (gi : nat) (headers : list string) (idx : nat) (record : res (list string)) : prog unit :=
    match record with
    | Err e => pfail e
    | Ok record =>
        pthen (pcall (FeatureBegin idx))
        (pthen (pcall PropertiesBegin)
        (pthen (pfor (fun i c => CallProp i (fst c) (CString (snd c)) (fun _ => pret tt)) 0
                     (csv_columns gi headers record))
        (pthen (pcall PropertiesEnd)
          match nth_error record gi with
          | None => pfail (ECsv 0)
          | Some field =>
              pthen (if String.eqb field "" then pret tt
                     else pthen (pcall GeometryBegin) (pthen (read_wkt field) (pcall GeometryEnd)))
                    (pcall (FeatureEnd idx))
          end)))
    end.
  (** csv_reader.rs:149-202 *)
  Definition process_csv_features (column : string) (headers : res (list string)) (records : list (res (list string)))
      : prog unit :=
    match headers with
    | Err e => pfail e
    | Ok headers =>
        pthen (pcall (DatasetBegin None))
          match position_of 0 column headers with
          | None => pfail (ECsv 0)
          | Some gi => pthen (pfor (csv_feature gi headers) 0 records) (pcall DatasetEnd)
          end
    end.

  (** csv_reader.rs:117-140 *)
  Fixpoint csv_geoms (gi : nat) (started : bool) (idx : nat) (records : list (res (list string))) : prog bool :=
    match records with
    | [] => pret started
    | Err e :: _ => pfail e
    | Ok record :: r =>
        match nth_error record gi with
        | None => pfail (ECsv 0)
        | Some field =>
            match parse field with
            | None => pfail (ECsv 1)
            | Some w =>
                pthen (if started then pret tt else pcall (CollectionBegin 1 0))
                (pthen (process_wkt_geom_n multi idx w) (csv_geoms gi true (S idx) r))
            end
        end
    end.
  (** csv_reader.rs:102-147 *)
  Definition process_csv_geom (column : string) (headers : res (list string)) (records : list (res (list string)))
      : prog unit :=
    match headers with
    | Err e => pfail e
    | Ok headers =>
        match position_of 0 column headers with
        | None => pfail (ECsv 0)
        | Some gi =>
            pbind (csv_geoms gi false 0 records) (fun started =>
            pthen (if started then pret tt else pcall (CollectionBegin 0 0)) (pcall (CollectionEnd 0)))
        end
    end.
End Reader.
