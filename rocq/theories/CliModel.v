(** Model of /repo/geozero-cli/src/main.rs: the command `geozero IN OUT`.  Parsers and crates that are
    not part of geozero (numbers, WKT, GeoJSON, CSV, FlatGeobuf, GeoParquet, HTTP) and the file
    system are the argument [world]; clap's own checks and the log are not modelled. *)
From Coq Require Import String Ascii.
From Coq Require Import List NArith ZArith Lia Bool.
From Verif Require Import Base Event Geom ProcModel WktModel CsvModel GeoJsonModel SvgModel.
Import ListNotations.
Local Open Scope string_scope.
Local Open Scope list_scope.

(** main.rs:43-49 *)
Record extent := mkExtent { e_minx : f64; e_miny : f64; e_maxx : f64; e_maxy : f64 }.
(** main.rs:22-41; the extent as text *)
Record args := mkArgs {
  a_column : option string;
  a_extent : option string;
  a_input : string;
  a_dest : string;
  a_style : option string
}.

(** contents of files *)
Definition fs := string -> option string.
Definition update (f : fs) (name text : string) : fs :=
  fun n => if String.eqb n name then Some text else f n.

Record world := mkWorld {
  (** `{v}` for f32 and f64, str::parse::<f64>, debug assertions *)
  w_fmt32 : N -> string;
  w_fmt : f64 -> string;
  w_num : string -> option f64;
  w_debug : bool;
  (** the parsers, on the contents of a file *)
  w_wkt : string -> option wkt;
  w_json : string -> res gj;
  w_lines : string -> list (res gj);
  w_ser : jvalue -> string;
  w_csv : string -> res (list string) * list (res (list string));
  (** the text of CSV records *)
  w_csv_text : csvout -> string;
  (** FgbReader and GeoParquet on the contents of a file; HttpFgbReader on an URL *)
  w_fgb : string -> option extent -> dims -> prog unit;
  w_parquet : string -> option extent -> dims -> prog unit;
  w_http : string -> option extent -> dims -> prog unit;
  (** FgbWriter: create, callbacks, write *)
  w_fgb_st : Type;
  w_fgb_new : res w_fgb_st;
  w_fgb_writer : proc w_fgb_st;
  w_fgb_bytes : w_fgb_st -> string * res unit;
  (** the file a path names, and whether it can be created *)
  w_resolve : string -> string;
  w_creatable : string -> bool;
  (** what a file contains after a BufWriter with this text is dropped.  Errors of this last flush
      are dropped too.  Text beyond the 8 KiB of the buffer is written earlier and its errors are
      returned to the writers; that is not modelled *)
  w_drop : string -> string
}.

(** ** Paths (std::path on Unix) *)
Fixpoint split_on (c : ascii) (s : string) : list string :=
  match s with
  | "" => [""]
  | String a r =>
      match split_on c r with
      | [] => [""]
      | w :: l => if Ascii.eqb a c then "" :: w :: l else String a w :: l
      end
  end.
(** Path::starts_with("http:"): the first component *)
Definition is_remote (p : string) : bool :=
  match split_on "/" p with c :: _ => String.eqb c "http:" || String.eqb c "https:" | [] => false end.
(** Path::file_name: the last component; empty and `.` components do not count *)
Definition file_name (p : string) : option string :=
  match rev (filter (fun c => negb (String.eqb c "" || String.eqb c ".")) (split_on "/" p)) with
  | [] => None
  | c :: _ => if String.eqb c ".." then None else Some c
  end.
(** Path::extension: after the last dot, if something is before it *)
Definition extension (p : string) : option string :=
  match file_name p with
  | None => None
  | Some n =>
      match rev (split_on "." n) with
      | [] | [_] => None
      | [e; ""] => None
      | e :: _ => Some e
      end
  end.
(** the comparisons in the two matches *)
Definition has (o : option string) (e : string) : bool :=
  match o with Some x => String.eqb x e | None => false end.

Section Cli.
  Variable w : world.

  (** main.rs:51-66; further values are ignored *)
  Fixpoint floats (l : list string) : res (list f64) :=
    match l with
    | [] => Ok []
    | s :: r =>
        match w_num w s, floats r with
        | Some x, Ok t => Ok (x :: t)
        | _, _ => Err EPanic
        end
    end.
  Definition parse_extent (s : string) : res extent :=
    match floats (split_on "," s) with
    | Ok (a :: b :: c :: d :: _) => Ok (mkExtent a b c d)
    | Ok _ => Err EPanic
    | Err e => Err e
    end.
  Definition parse_extent_option (o : option string) : res (option extent) :=
    match o with
    | None => Ok None
    | Some s => match parse_extent s with Ok e => Ok (Some e) | Err x => Err x end
    end.

  Section Run.
    Variable a : args.
    Variable ext : option extent.

    (** main.rs:68-147.  The input file is read when it is opened (for formats read in pieces: no one
        else writes to it meanwhile; the output is written by the same process, see CliProps). *)
    Definition transform (f : fs) (d : dims) : prog unit :=
      let x := extension (a_input a) in
      if is_remote (a_input a) then                                              (* 70-84 *)
        if has x "fgb" then w_http w (a_input a) ext d else pfail EPanic
      else
        match f (w_resolve w (a_input a)) with                                   (* 86 *)
        | None => pfail EIo
        | Some text =>
            if has x "csv" then                                                  (* 88-95 *)
              match a_column a with
              | None => pfail EPanic
              | Some c =>
                  let (headers, records) := w_csv w text in
                  process_csv_features (w_wkt w) (multi_dim d) c headers records
              end
            else if has x "json" || has x "geojson" then                         (* 96-98 *)
              read_geojson (w_ser w) (multi_dim d) (w_json w text)
            else if has x "jsonl" || has x "geojsonl" then                       (* 99-101 *)
              read_geojson_lines (w_ser w) (multi_dim d) (w_lines w text)
            else if has x "parquet" || has x "geoparquet" then                   (* 102-133 *)
              w_parquet w text ext d
            else if has x "fgb" then w_fgb w text ext d                          (* 134-143 *)
            else if has x "wkt" then read_wkt (w_wkt w) (multi_dim d) text       (* 144 *)
            else pfail EPanic                                                    (* 145 *)
        end.

    (** main.rs:179-203 *)
    Definition zero_extent : extent := mkExtent 0%N 0%N 0%N 0%N.
    Definition get_extent (f : fs) : res extent :=
      match ext with
      | Some e => Ok e
      | None =>
          match exec bounds_proc (transform f xy_dims) None with
          | (_, Err x) => Err x
          | (None, Ok _) => Ok zero_extent
          | (Some b, Ok _) => Ok (mkExtent (min_x b) (min_y b) (max_x b) (max_y b))
          end
      end.

    (** main.rs:149-177; what was written before an error stays in the file *)
    Definition save (f : fs) (r : string * res unit) : fs * res unit :=
      (update f (w_resolve w (a_dest a)) (w_drop w (fst r)), snd r).
    Definition process (f : fs) : fs * res unit :=
      let dest := w_resolve w (a_dest a) in
      if negb (w_creatable w dest) then (f, Err EIo) else                        (* 150 *)
      let f := update f dest "" in
      let x := extension (a_dest a) in
      if has x "csv" then                                                        (* 152 *)
        let (s, r) := exec (csv_writer (w_fmt32 w) (w_fmt w) (w_debug w) xy_dims) (transform f xy_dims) csv_init in
        save f (w_csv_text w (cs_csv s), r)
      else if has x "wkt" then                                                   (* 153 *)
        let (s, r) := exec (wkt_writer (w_fmt w) (mkWktCfg xy_dims PlainWkt)) (transform f xy_dims) (wkt_init None) in
        save f (k_out s, r)
      else if has x "json" || has x "geojson" then                               (* 154-156 *)
        save f (exec (geojson_writer (w_fmt32 w) (w_fmt w) xy_dims) (transform f xy_dims) "")
      else if has x "fgb" then                                                   (* 157-162 *)
        match w_fgb_new w with
        | Err e => (f, Err e)
        | Ok s =>
            match exec (w_fgb_writer w) (transform f (p_dims (w_fgb_writer w))) s with
            | (s, Ok _) => save f (w_fgb_bytes w s)
            | (_, Err e) => (f, Err e)
            end
        end
      else if has x "svg" then                                                   (* 163-171 *)
        match get_extent f with
        | Err e => (f, Err e)
        | Ok e =>
            let c := set_dimensions (set_style (svg_new true) (a_style a))
                       (e_minx e) (e_miny e) (e_maxx e) (e_maxy e) 800%N 600%N in
            save f (exec (svg_writer (w_fmt w) c) (transform f xy_dims) "")
        end
      else (f, Err EPanic).                                                      (* 173 *)
  End Run.

  (** main.rs:235-249: the exit status; 101 is that of a panic *)
  Definition status (r : res unit) : N :=
    match r with Ok _ => 0%N | Err EPanic => 101%N | Err _ => 1%N end.
  Definition main (a : args) (f : fs) : fs * N :=
    match parse_extent_option (a_extent a) with
    | Err e => (f, status (Err e))
    | Ok ext => let (f', r) := process a ext f in (f', status r)
    end.
End Cli.
