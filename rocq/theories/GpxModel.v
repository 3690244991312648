(** Model of /repo/geozero/src/gpx/gpx_reader.rs.  The crate gpx (XML) is not modelled: the reader
    takes the document the crate returns. *)
From Coq Require Import List NArith ZArith Bool.
From Verif Require Import Base Event Geom.
Import ListNotations.
Local Open Scope list_scope.

(** waypoint.point(): x and y *)
Definition waypoint : Type := f64 * f64.
(** gpx::Gpx: the fields the reader uses *)
Record gpx := mkGpx {
  gpx_waypoints : list waypoint;
  gpx_tracks : list (list (list waypoint));   (* tracks, segments, points *)
  gpx_routes : list (list waypoint)
}.

(** gpx_reader.rs:128-147 (process_waypoints_iter), wrap_point = false *)
Definition gpx_points (l : list waypoint) : prog unit :=
  pfor (fun i p => pcall (Xy (fst p) (snd p) i)) 0 l.
(** wrap_point = true *)
Definition gpx_wrapped (i : nat) (p : waypoint) : prog unit :=
  pthen (pcall (PointBegin i)) (pthen (pcall (Xy (fst p) (snd p) 0)) (pcall (PointEnd i))).
(** gpx_reader.rs:45-55; the index grows by the number of waypoints *)
Definition gpx_top_waypoints (i : nat) (l : list waypoint) : prog unit := pfor gpx_wrapped i l.

(** gpx_reader.rs:86-98 (process_track_segment) and 117-127 (process_route) *)
Definition gpx_line (i : nat) (l : list waypoint) : prog unit :=
  match l with
  | [] => pret tt
  | _ => pthen (pcall (LineStringBegin false (length l) i)) (pthen (gpx_points l) (pcall (LineStringEnd false i)))
  end.
(** gpx_reader.rs:69-84 (process_track_segments) *)
Definition gpx_track (i : nat) (t : list (list waypoint)) : prog unit :=
  match t with
  | [] => pret tt
  | _ => pthen (pcall (MultiLineStringBegin (length t) i)) (pthen (pfor gpx_line 0 t) (pcall (MultiLineStringEnd i)))
  end.
(** gpx_reader.rs:100-115 (process_top_level_routes); the body is that of process_track_segments *)
Definition gpx_routes_at (i : nat) (l : list (list waypoint)) : prog unit :=
  match l with
  | [] => pret tt
  | _ => pthen (pcall (MultiLineStringBegin (length l) i)) (pthen (pfor gpx_line 0 l) (pcall (MultiLineStringEnd i)))
  end.

(** gpx_reader.rs:26-43; an error of gpx::read becomes GeozeroError::Geometry.  GpxReader::process
    and Gpx::process_geom both call it. *)
Definition read_gpx (doc : option gpx) : prog unit :=
  match doc with
  | None => pfail EGeometry
  | Some g =>
      let w := length (gpx_waypoints g) in
      let t := length (gpx_tracks g) in
      pthen (pcall (CollectionBegin (w + t + length (gpx_routes g)) 0))
      (pthen (gpx_top_waypoints 0 (gpx_waypoints g))
      (pthen (pfor gpx_track w (gpx_tracks g))
      (pthen (gpx_routes_at (w + t) (gpx_routes g))
             (pcall (CollectionEnd 0)))))
  end.
