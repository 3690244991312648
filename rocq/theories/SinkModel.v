(** Model of a writer of geozero over a destination (std::io::Write) that accepts [cap] bytes and then
    fails, as a full disk does.  Every write of WktWriter (wkt_writer.rs:45-233), GeoJsonWriter
    (geojson_writer.rs:24-243), GeoJsonLineWriter (geojson_line_writer.rs:33-53), SvgWriter
    (svg/writer.rs:46-139) and WkbWriter (wkb_writer.rs:101-439) is followed by `?`: the callback that
    needs more room than is left returns the I/O error.  Simplified: the bookkeeping of a writer after a
    failed callback is as if the callback had succeeded; only what reached the destination is
    observed then. *)
From Coq Require Import String Ascii.
From Coq Require Import List NArith ZArith Lia Bool.
From Verif Require Import Base Event CsvModel.
Import ListNotations.
Local Open Scope list_scope.

Section Sink.
  Context {S X : Type}.
  (** what was written so far *)
  Variable out : S -> list X.
  (** how much of n bytes written has been passed on to the destination *)
  Variable sent : nat -> nat.
  Variable cap : nat.
  (** does a callback from [s] to [s'] run into the limit? *)
  Definition overflows (s s' : S) : bool :=
    Nat.ltb cap (sent (length (out s'))) && Nat.ltb (sent (length (out s))) (sent (length (out s'))).
  Definition limited (p : proc S) : proc S :=
    mkProc (p_dims p)
      (fun s e => let (s', r) := p_step p s e in (s', if overflows s s' then Err EIo else r))
      (fun s i n v => let (s', r) := p_prop p s i n v in (s', if overflows s s' then Err EIo else r)).
  (** what is in the destination in the end *)
  Definition stored (s : S) : list X := firstn cap (out s).
End Sink.

(** a writer without a buffer of its own passes everything on *)
Definition unbuffered (n : nat) : nat := n.
(** csv::Writer (csv 1.4.0, csv_writer.rs:8, 23) has a buffer of [buf] bytes (8 KiB), which is passed on
    when it is full and more is to be written.  CsvWriter has no way to flush it; the drop of
    csv::Writer passes the rest on and ignores errors. *)
Definition buffered (buf n : nat) : nat := Nat.div (n - 1) buf * buf.
(** what CsvWriter has written: the records finished, in the encoding of the csv crate *)
Definition csv_bytes (encode : list string -> list ascii) (s : csvst) : list ascii :=
  flat_map encode (o_records (cs_csv s)).
