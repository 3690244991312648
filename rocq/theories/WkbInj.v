(** Proofs behind claim C68 for WKB: the layouts determine the geometry, whatever its depth. *)
From Coq Require Import String Ascii.
From Coq Require Import List NArith ZArith Lia Bool.
From Coq Require Import Init.Byte.
From Verif Require Import Base BaseLemmas Float Event EventLemmas Claims Geom WkbModel WkbSpec WkbClaims WkbRead WkbTop.
Import ListNotations.
Local Open Scope N_scope.
Local Open Scope list_scope.

Lemma same_length : forall A (a b r r' : list A), length a = length b -> a ++ r = b ++ r' -> a = b /\ r = r'.
Proof.
  induction a as [|x a IH]; intros [|y b] r r' L E; try discriminate L; [now split|].
  cbn in E. injection E as -> E. injection L as L. destruct (IH b r r' L E) as [-> ->]. now split.
Qed.
Lemma number_told : forall e k n n' r r', n < 256 ^ N.of_nat k -> n' < 256 ^ N.of_nat k ->
  bytes_of e k n ++ r = bytes_of e k n' ++ r' -> n = n' /\ r = r'.
Proof.
  intros e k n n' r r' L L' E. apply same_length in E; [|now rewrite !bytes_of_length].
  destruct E as [E R]. split; [|exact R]. rewrite <- (val_of_bytes_of e k n L), E. now apply val_of_bytes_of.
Qed.
Lemma u32_told : forall e n n' r r', n < 2 ^ 32 -> n' < 2 ^ 32 ->
  bytes_of e 4 n ++ r = bytes_of e 4 n' ++ r' -> n = n' /\ r = r'.
Proof. intros e n n' r r' L L'. now apply number_told. Qed.
Lemma f64_told : forall e n n' r r', f64_ok n -> f64_ok n' ->
  bytes_of e 8 n ++ r = bytes_of e 8 n' ++ r' -> n = n' /\ r = r'.
Proof. intros e n n' r r' L L'. now apply number_told. Qed.
Lemma count_told : forall e n n' r r', N.of_nat n < 2 ^ 32 -> N.of_nat n' < 2 ^ 32 ->
  count_bytes e n ++ r = count_bytes e n' ++ r' -> n = n' /\ r = r'.
Proof. intros e n n' r r' L L' E. apply u32_told in E; try assumption. destruct E as [E ->]. split; [lia|reflexivity]. Qed.
Lemma default_ok : forall x, of64_ok x -> f64_ok (opt_default 0 x).
Proof. intros [x|] H; [exact H|]. unfold f64_ok. cbn. lia. Qed.
Lemma coord_told : forall z m e a b r r', coord64 a -> coord64 b ->
  coord_bytes z m e a ++ r = coord_bytes z m e b ++ r' -> stored z m a = stored z m b /\ r = r'.
Proof.
  intros z m e a b r r' (A1 & A2 & A3 & A4) (B1 & B2 & B3 & B4) E. unfold coord_bytes in E. rewrite <- !app_assoc in E.
  apply f64_told in E; try assumption. destruct E as [X E].
  apply f64_told in E; try assumption. destruct E as [Y E].
  apply default_ok in A3, A4, B3, B4. unfold stored. rewrite X, Y.
  destruct z; [apply f64_told in E; try assumption; destruct E as [Z E]; rewrite Z|]; cbn [app] in E;
    (destruct m; [apply f64_told in E; try assumption; destruct E as [M E]; rewrite M|]; cbn [app] in E; now split).
Qed.

(** [f] and [f'] write things satisfying [P] so that they can be told apart, as far as [m] goes *)
Definition told {A B} (P : A -> Prop) (f f' : A -> list byte) (m : A -> B) : Prop :=
  forall a b r r', P a -> P b -> f a ++ r = f' b ++ r' -> m a = m b /\ r = r'.
Lemma told_all : forall A B P (f f' : A -> list byte) (m : A -> B), told P f f' m ->
  forall l l' r r', length l = length l' -> Forall P l -> Forall P l' ->
  flat_map f l ++ r = flat_map f' l' ++ r' -> map m l = map m l' /\ r = r'.
Proof.
  intros A B P f f' m T. induction l as [|a l IH]; intros [|b l'] r r' L H H' E; try discriminate L; [now split|].
  inversion_clear H as [|? ? H1 H2]. inversion_clear H' as [|? ? H3 H4]. cbn [flat_map] in E. rewrite <- !app_assoc in E.
  apply T in E; try assumption. destruct E as [E1 E]. apply IH in E; try assumption; [|now injection L].
  destruct E as [E2 ->]. cbn [map]. now rewrite E1, E2.
Qed.
Lemma told_mapi : forall A B P (f f' : nat -> A -> list byte) (m : A -> B), (forall k, told P (f k) (f' k) m) ->
  forall l l' k r r', length l = length l' -> Forall P l -> Forall P l' ->
  flat_mapi f k l ++ r = flat_mapi f' k l' ++ r' -> map m l = map m l' /\ r = r'.
Proof.
  intros A B P f f' m T. induction l as [|a l IH]; intros [|b l'] k r r' L H H' E; try discriminate L; [now split|].
  inversion_clear H as [|? ? H1 H2]. inversion_clear H' as [|? ? H3 H4]. cbn [flat_mapi] in E. rewrite <- !app_assoc in E.
  apply T in E; try assumption. destruct E as [E1 E]. apply IH in E; try assumption; [|now injection L].
  destruct E as [E2 ->]. cbn [map]. now rewrite E1, E2.
Qed.
Lemma told_marked : forall A B P (f f' : A -> list byte) (m : A -> B) x, told P f f' m ->
  told P (fun a => f a ++ x) (fun a => f' a ++ x) m.
Proof.
  intros A B P f f' m x T a b r r' H H' E. rewrite <- !app_assoc in E. apply T in E; try assumption.
  destruct E as [E1 E]. apply app_inv_head in E. now split.
Qed.

(** codes of sub-geometries *)
Definition small_code (c : N) : Prop := c < 1000.
Lemma kind_small : forall g, small_code (kind_code g).
Proof. intros []; unfold small_code; cbn; lia. Qed.

Section Body.
  Variables z m : bool.
  Variable hdr : endian -> N -> list byte.
  Variables o o' : list nat -> endian.
  Hypothesis Hh : forall p c c' r r', small_code c -> small_code c' ->
    hdr (o p) c ++ r = hdr (o' p) c' ++ r' -> o p = o' p /\ c = c' /\ r = r'.
  Let cb := coord_bytes z m.
  Let f := stored z m.
  Let Q := fun n => N.of_nat n < 2 ^ 32.

  Lemma line_told : forall e, told (on_line coord64 Q) (line_bytes cb e) (line_bytes cb e) (map f).
  Proof.
    intros e a b r r' [A1 A2] [B1 B2] E. unfold line_bytes in E. rewrite <- !app_assoc in E.
    apply count_told in E; try assumption. destruct E as [L E].
    apply (told_all _ _ coord64 _ _ f) in E; try assumption. intros x y q q'. apply coord_told.
  Qed.
  Lemma rings_told : forall e, told (on_rings coord64 Q) (rings_bytes cb e) (rings_bytes cb e) (map (map f)).
  Proof.
    intros e a b r r' [A1 A2] [B1 B2] E. unfold rings_bytes in E. rewrite <- !app_assoc in E.
    apply count_told in E; try assumption. destruct E as [L E].
    exact (told_all _ _ _ _ _ _ (line_told e) _ _ _ _ L A2 B2 E).
  Qed.
  Lemma headed : forall A B (P : A -> Prop) (w : endian -> A -> list byte) (h : A -> B) c p, small_code c ->
    (forall e, told P (w e) (w e) h) ->
    told P (fun a => hdr (o p) c ++ w (o p) a) (fun a => hdr (o' p) c ++ w (o' p) a) h.
  Proof.
    intros A B P w h c p C T a b r r' H H' E. rewrite <- !app_assoc in E. apply Hh in E; try assumption.
    destruct E as (O & _ & E). rewrite <- O in E. now apply (T (o p)).
  Qed.
  Ltac code := unfold small_code; lia.
  Lemma point_told : forall p, told coord64 (point_bytes hdr cb o p) (point_bytes hdr cb o' p) f.
  Proof. intros p. apply (headed _ _ _ cb); [code|]. intros e a b r r'. apply coord_told. Qed.
  Lemma linestring_told : forall p, told (on_line coord64 Q) (linestring_bytes hdr cb o p) (linestring_bytes hdr cb o' p) (map f).
  Proof. intros p. apply (headed _ _ _ (line_bytes cb)); [code|apply line_told]. Qed.
  Lemma arc_told : forall p, told (on_line coord64 Q) (arc_bytes hdr cb o p) (arc_bytes hdr cb o' p) (map f).
  Proof. intros p. apply (headed _ _ _ (line_bytes cb)); [code|apply line_told]. Qed.
  Lemma polygon_told : forall p, told (on_rings coord64 Q) (polygon_bytes hdr cb o p) (polygon_bytes hdr cb o' p) (map (map f)).
  Proof. intros p. apply (headed _ _ _ (rings_bytes cb)); [code|apply rings_told]. Qed.
  Lemma triangle_told : forall p, told (on_rings coord64 Q) (triangle_bytes hdr cb o p) (triangle_bytes hdr cb o' p) (map (map f)).
  Proof. intros p. apply (headed _ _ _ (rings_bytes cb)); [code|apply rings_told]. Qed.
  Lemma members_told : forall A B (P : A -> Prop) (w w' : list nat -> A -> list byte) (h : A -> B) p, o p = o' p ->
    (forall q, told P (w q) (w' q) h) ->
    told (fun l => Q (length l) /\ Forall P l) (members o p w) (members o' p w') (map h).
  Proof.
    intros A B P w w' h p O T a b r r' [A1 A2] [B1 B2] E. unfold members in E. rewrite <- !app_assoc in E. rewrite <- O in E.
    apply count_told in E; try assumption. destruct E as [L E].
    exact (told_mapi _ _ P _ _ h (fun k => T (k :: p)) _ _ _ _ _ L A2 B2 E).
  Qed.
  Ltac other E := exfalso; unfold linestring_bytes, arc_bytes, polygon_bytes in E; rewrite <- ?app_assoc in E;
    apply Hh in E; [|code|code]; destruct E as (_ & E & _); discriminate E.
  Lemma segment_told : forall p, told (on_segment coord64 Q) (segment_bytes hdr cb o p) (segment_bytes hdr cb o' p) (map_segment f).
  Proof.
    intros p [a|a] [b|b] r r' H H' E; cbn [segment_bytes on_segment map_segment] in *; try (other E).
    - apply linestring_told in E; try assumption. destruct E as [-> ->]. now split.
    - apply arc_told in E; try assumption. destruct E as [-> ->]. now split.
  Qed.
  Lemma curve_told : forall p, told (on_curve coord64 Q) (curve_bytes hdr cb o p) (curve_bytes hdr cb o' p) (map_curve f).
  Proof.
    intros p [a|a|a] [b|b|b] r r' H H' E; cbn [curve_bytes on_curve map_curve] in *; try (other E).
    - apply linestring_told in E; try assumption. destruct E as [-> ->]. now split.
    - apply arc_told in E; try assumption. destruct E as [-> ->]. now split.
    - rewrite <- !app_assoc in E. apply Hh in E; [|code|code]. destruct E as (O & _ & E).
      apply (members_told _ _ _ _ _ _ p O segment_told) in E; try assumption. destruct E as [-> ->]. now split.
  Qed.
  Lemma surface_told : forall p, told (on_surface coord64 Q) (surface_bytes hdr cb o p) (surface_bytes hdr cb o' p) (map_surface f).
  Proof.
    intros p [a|a] [b|b] r r' H H' E; cbn [surface_bytes on_surface map_surface] in *; try (other E).
    - apply polygon_told in E; try assumption. destruct E as [-> ->]. now split.
    - rewrite <- !app_assoc in E. apply Hh in E; [|code|code]. destruct E as (O & _ & E).
      apply (members_told _ _ _ _ _ _ p O curve_told) in E; try assumption. destruct E as [-> ->]. now split.
  Qed.

  Definition go_bytes (oo : list nat -> endian) (p : list nat) :=
    fix go (k : nat) (l : list geom) : list byte :=
      match l with
      | [] => []
      | a :: r => (hdr (oo (k :: p)) (kind_code a) ++ body hdr cb oo (k :: p) a) ++ go (S k) r
      end.
  Ltac close E := let X := fresh in let Y := fresh in destruct E as [X Y]; split; [f_equal; exact X|exact Y].
  Lemma nan_coord64 : coord64 nan_coord.
  Proof. unfold coord64, nan_coord, f64_ok; cbn; unfold f64_ok; repeat split; lia. Qed.
  Lemma nan_empty : point_or_empty (f nan_coord) = GEmptyPoint.
  Proof. unfold f. destruct z, m; reflexivity. Qed.
  Lemma body_told : forall g p g' r r', kind_code g = kind_code g' -> o p = o' p -> encodable g -> encodable g' ->
    body hdr cb o p g ++ r = body hdr cb o' p g' ++ r' -> retained z m g = retained z m g' /\ r = r'.
  Proof.
    unfold retained. fold f.
    intros g. induction g using geom_ind'; intros p g' r r' K O H1 H2 E; destruct g'; try discriminate K; clear K;
      unfold encodable in H1, H2; try (rewrite on_geom_collection in H1, H2); cbn [on_geom] in H1, H2;
      cbn [map_geom]; cbn [body] in E; rewrite ?O in E.
    - apply coord_told in E; [|apply H1|apply H2]. fold f in E. close E.
    - apply coord_told in E; [|apply H1|apply nan_coord64]. fold f in E. destruct E as [-> ->]. split; [apply nan_empty|reflexivity].
    - apply coord_told in E; [|apply nan_coord64|apply H2]. fold f in E. destruct E as [<- ->]. split; [symmetry; apply nan_empty|reflexivity].
    - apply coord_told in E; [|apply nan_coord64|apply nan_coord64]. split; [reflexivity|apply E].
    - apply (members_told _ _ _ _ _ _ p O point_told) in E; try assumption. close E.
    - apply line_told in E; try assumption. close E.
    - apply (members_told _ _ _ _ _ _ p O linestring_told) in E; try assumption. close E.
    - apply rings_told in E; try assumption. close E.
    - apply (members_told _ _ _ _ _ _ p O polygon_told) in E; try assumption. close E.
    - destruct H1 as [Q1 F1], H2 as [Q2 F2]. rewrite <- !app_assoc in E.
      apply count_told in E; try assumption. destruct E as [L E].
      change (go_bytes o p 0 l ++ r = go_bytes o' p 0 l0 ++ r') in E.
      assert (M : map (map_geom point_or_empty f) l = map (map_geom point_or_empty f) l0 /\ r = r').
      { clear Q1 Q2. revert l0 F2 L E. generalize 0%nat as k. induction H as [|a l A _ IH]; intros k [|b l'] F2 L E; try discriminate L; [now split|].
        inversion_clear F1 as [|? ? F1a F1b]. inversion_clear F2 as [|? ? F2a F2b].
        cbn [go_bytes] in E. fold (go_bytes o p) in E. fold (go_bytes o' p) in E. rewrite <- !app_assoc in E.
        apply Hh in E; try apply kind_small. destruct E as (O' & K & E).
        apply A in E; try assumption. destruct E as [E1 E]. apply IH in E; try assumption; [|now injection L].
        destruct E as [E2 ->]. cbn [map]. now rewrite E1, E2. }
      close M.
    - apply line_told in E; try assumption. close E.
    - apply (members_told _ _ _ _ _ _ p O segment_told) in E; try assumption. close E.
    - apply (members_told _ _ _ _ _ _ p O curve_told) in E; try assumption. close E.
    - apply (members_told _ _ _ _ _ _ p O curve_told) in E; try assumption. close E.
    - apply (members_told _ _ _ _ _ _ p O surface_told) in E; try assumption. close E.
    - apply rings_told in E; try assumption. close E.
    - apply (members_told _ _ _ _ _ _ p O polygon_told) in E; try assumption. close E.
    - apply (members_told _ _ _ _ _ _ p O triangle_told) in E; try assumption. close E.
  Qed.
End Body.

(** ** Headers *)
Lemma order_told : forall e e', order_byte e = order_byte e' -> e = e'.
Proof. intros [] []; (reflexivity || discriminate). Qed.
Lemma iso_told : forall z m c z' m' c', small_code c -> small_code c' -> iso_code z m c = iso_code z' m' c' ->
  z = z' /\ m = m' /\ c = c'.
Proof.
  unfold small_code, iso_code, flag. intros [] [] c [] [] c' L L' E; repeat split; lia.
Qed.
Lemma iso_small : forall z m c, small_code c -> iso_code z m c < 2 ^ 32.
Proof. unfold small_code, iso_code, flag. intros [] [] c L; lia. Qed.
Lemma iso_header_told : forall z m e c z' m' e' c' r r', small_code c -> small_code c' ->
  iso_header z m e c ++ r = iso_header z' m' e' c' ++ r' -> e = e' /\ z = z' /\ m = m' /\ c = c' /\ r = r'.
Proof.
  intros z m e c z' m' e' c' r r' L L' E. unfold iso_header in E. cbn [app] in E. injection E as O E.
  apply order_told in O. subst e'. apply u32_told in E; [|now apply iso_small..]. destruct E as [E ->].
  apply iso_told in E; try assumption. destruct E as (-> & -> & ->). repeat split.
Qed.
Lemma ewkb_told : forall z m s c z' m' s' c', small_code c -> small_code c' -> ewkb_code z m s c = ewkb_code z' m' s' c' ->
  z = z' /\ m = m' /\ s = s' /\ c = c'.
Proof.
  unfold small_code, ewkb_code, flag. intros [] [] [] c [] [] [] c' L L' E; repeat split; lia.
Qed.
Lemma ewkb_small : forall z m s c, small_code c -> ewkb_code z m s c < 2 ^ 32.
Proof. unfold small_code, ewkb_code, flag. intros [] [] [] c L; lia. Qed.
Lemma srid_told : forall e s s' r r', is_i32 s -> is_i32 s' ->
  bytes_of e 4 (i32_to_u32 s) ++ r = bytes_of e 4 (i32_to_u32 s') ++ r' -> s = s' /\ r = r'.
Proof.
  intros e s s' r r' H H' E. apply u32_told in E; try apply i32_to_u32_lt. destruct E as [E ->].
  split; [|reflexivity]. rewrite <- (u32_to_i32_to_u32 s H), E. now apply u32_to_i32_to_u32.
Qed.
Lemma ewkb_header_told : forall z m s e c z' m' s' e' c' r r', small_code c -> small_code c' ->
  srid_ok Ewkb s -> srid_ok Ewkb s' ->
  ewkb_header z m s e c ++ r = ewkb_header z' m' s' e' c' ++ r' -> e = e' /\ z = z' /\ m = m' /\ s = s' /\ c = c' /\ r = r'.
Proof.
  intros z m s e c z' m' s' e' c' r r' L L' H H' E. unfold ewkb_header in E. cbn [app] in E. injection E as O E.
  apply order_told in O. subst e'. rewrite <- !app_assoc in E. apply u32_told in E; [|now apply ewkb_small..]. destruct E as [C E].
  apply ewkb_told in C; try assumption. destruct C as (-> & -> & S & ->).
  destruct s as [s|], s' as [s'|]; try discriminate S.
  - apply srid_told in E; try assumption. destruct E as [-> ->]. repeat split.
  - cbn [app] in E. subst r'. repeat split.
Qed.
Lemma sub_header_told : forall z m e c c' r r', small_code c -> small_code c' ->
  spatialite_sub_header z m e c ++ r = spatialite_sub_header z m e c' ++ r' -> e = e /\ c = c' /\ r = r'.
Proof.
  intros z m e c c' r r' L L' E. unfold spatialite_sub_header in E. cbn [app] in E. injection E as E.
  apply u32_told in E; [|now apply iso_small..]. destruct E as [E ->].
  apply iso_told in E; try assumption. destruct E as (_ & _ & ->). repeat split.
Qed.
Lemma mysql_i32 : forall dl s, srid_ok dl s -> is_i32 (opt_default 0%Z s).
Proof.
  intros dl [s|] H; cbn [srid_ok opt_default] in *; [|unfold is_i32; lia].
  destruct dl; try exact H. unfold is_i32. lia.
Qed.
Lemma env_told : forall e l l' r r', length l = length l' -> Forall f64_ok l -> Forall f64_ok l' ->
  flat_map (bytes_of e 8) l ++ r = flat_map (bytes_of e 8) l' ++ r' -> l = l' /\ r = r'.
Proof.
  intros e l l' r r' L H H' E. apply (told_all _ _ f64_ok _ _ (fun x => x)) in E; try assumption.
  - rewrite !map_id in E. exact E.
  - intros a b q q'. apply f64_told.
Qed.
Lemma byte_told : forall n n', n < 256 -> n' < 256 -> byte_of n = byte_of n' -> n = n'.
Proof. intros n n' L L' E. apply (f_equal val) in E. rewrite !val_byte_of in E. now rewrite !N.mod_small in E by assumption. Qed.
Lemma gpkg_header_told : forall e ext emp d s env e' ext' emp' d' s' env' r r',
  env_ok Geopackage d env -> env_ok Geopackage d' env' -> is_i32 s -> is_i32 s' ->
  gpkg_header e ext emp (dz d) (dm d) s env ++ r = gpkg_header e' ext' emp' (dz d') (dm d') s' env' ++ r' ->
  e = e' /\ s = s' /\ r = r'.
Proof.
  intros e ext emp [z m t tm] s env e' ext' emp' [z' m' t' tm'] s' env' r r' [V1 V2] [V1' V2'] H H' E.
  cbn [dz dm] in *. unfold gpkg_header in E. rewrite <- !app_assoc in E. cbn [app] in E. injection E as F E.
  apply byte_told in F.
  2,3: unfold flag, gpkg_env_code; destruct ext, emp, e, z, m, env; destruct ext', emp', e', z', m', env'; cbn; lia.
  assert (X : e = e' /\ length env = length env').
  { destruct V1 as [->|V1], V1' as [->|V1'].
    - split; [|reflexivity]. destruct ext, emp, e, ext', emp', e'; cbn in F; try reflexivity; discriminate F.
    - exfalso. destruct env' as [|x env']; [destruct z', m'; discriminate V1'|].
      destruct ext, emp, e, ext', emp', e', z', m'; discriminate F.
    - exfalso. destruct env as [|x env]; [destruct z, m; discriminate V1|].
      destruct ext, emp, e, ext', emp', e', z, m; discriminate F.
    - destruct env as [|x env]; [destruct z, m; discriminate V1|]. destruct env' as [|x' env']; [destruct z', m'; discriminate V1'|].
      rewrite V1, V1'. destruct ext, emp, e, ext', emp', e', z, m, z', m'; try discriminate F; split; reflexivity. }
  destruct X as [-> L]. apply srid_told in E; try assumption. destruct E as [-> E].
  apply env_told in E; try assumption. destruct E as [_ ->]. repeat split.
Qed.
Lemma blob_env : forall (env : list f64) d, env_ok SpatiaLite d env ->
  length (match env with [] => [0; 0; 0; 0] | _ => env end) = 4%nat /\
  Forall f64_ok (match env with [] => [0; 0; 0; 0] | _ => env end).
Proof.
  intros env d [[->|L] F].
  - split; [reflexivity|]. repeat constructor.
  - destruct env; [discriminate L|]. now split.
Qed.
Lemma spatialite_header_told : forall z m s env e c z' m' s' env' e' c' d d' r r', small_code c -> small_code c' ->
  env_ok SpatiaLite d env -> env_ok SpatiaLite d' env' -> is_i32 s -> is_i32 s' ->
  spatialite_header z m s env e c ++ r = spatialite_header z' m' s' env' e' c' ++ r' ->
  e = e' /\ z = z' /\ m = m' /\ s = s' /\ c = c' /\ r = r'.
Proof.
  intros z m s env e c z' m' s' env' e' c' d d' r r' L L' V V' H H' E. unfold spatialite_header in E.
  rewrite <- !app_assoc in E. cbn [app] in E. injection E as O E. apply order_told in O. subst e'.
  rewrite <- ?app_assoc in E. apply srid_told in E; try assumption. destruct E as [-> E].
  destruct (blob_env env d V) as [L1 F1], (blob_env env' d' V') as [L2 F2].
  apply env_told in E; [|etransitivity; [exact L1|symmetry; exact L2]|exact F1|exact F2]. destruct E as [_ E]. cbn [app] in E. injection E as E.
  apply u32_told in E; [|now apply iso_small..]. destruct E as [E ->].
  apply iso_told in E; try assumption. destruct E as (-> & -> & ->). repeat split.
Qed.

Lemma iso_body : forall z m o o' g g' r r', encodable g -> encodable g' ->
  iso_header z m (o []) (kind_code g) ++ body (iso_header z m) (coord_bytes z m) o [] g ++ r =
  iso_header z m (o' []) (kind_code g') ++ body (iso_header z m) (coord_bytes z m) o' [] g' ++ r' ->
  retained z m g = retained z m g'.
Proof.
  intros z m o o' g g' r r' G G' E. apply iso_header_told in E; try apply kind_small. destruct E as (O & _ & _ & K & E).
  apply body_told in E; try assumption; [apply E|].
  intros p c c' q q' L L' X. apply iso_header_told in X; try assumption. tauto.
Qed.
Lemma enc_wkb_told : forall z m o z' m' o' g g', encodable g -> encodable g' -> enc_wkb z m o g = enc_wkb z' m' o' g' ->
  z = z' /\ m = m' /\ retained z m g = retained z' m' g'.
Proof.
  intros z m o z' m' o' g g' G G' E. unfold enc_wkb in E. pose proof E as E0.
  apply iso_header_told in E; try apply kind_small. destruct E as (_ & -> & -> & _ & _).
  repeat split. apply (iso_body z' m' o o' g g' [] []); try assumption. now rewrite !app_nil_r.
Qed.
Lemma std_told : forall dl d d' s s' env env' ed ed' ext ext' emp emp' o o' g g',
  encodable g -> encodable g' -> srid_ok dl s -> srid_ok dl s' -> env_ok dl ed env -> env_ok dl ed' env' ->
  std dl d s env ed ext emp o g = std dl d' s' env' ed' ext' emp' o' g' ->
  dz d = dz d' /\ dm d = dm d' /\ retained (dz d) (dm d) g = retained (dz d') (dm d') g' /\
  reported_srid dl s = reported_srid dl s'.
Proof.
  intros dl d d' s s' env env' ed ed' ext ext' emp emp' o o' g g' G G' R R' V V' E.
  pose proof (mysql_i32 dl s R) as I. pose proof (mysql_i32 dl s' R') as I'.
  destruct dl; cbn [std] in E.
  - apply enc_wkb_told in E; try assumption. cbn [reported_srid]. tauto.
  - unfold enc_ewkb in E. apply ewkb_header_told in E; try assumption; try apply kind_small.
    destruct E as (O & <- & <- & -> & K & E). repeat split.
    rewrite <- (app_nil_r (body _ _ o [] g)), <- (app_nil_r (body _ _ o' [] g')) in E.
    apply body_told in E; try assumption; [apply E|].
    intros p c c' q q' L L' X. apply ewkb_header_told in X; try assumption; try exact Logic.I. tauto.
  - unfold enc_gpkg in E. apply gpkg_header_told in E; try assumption. destruct E as (_ & S & E).
    apply enc_wkb_told in E; try assumption. cbn [reported_srid]. rewrite S. tauto.
  - unfold enc_mysql in E. apply srid_told in E; try assumption. destruct E as (S & E).
    apply enc_wkb_told in E; try assumption. cbn [reported_srid]. rewrite S. tauto.
  - unfold enc_spatialite in E. eapply spatialite_header_told in E; try eassumption; try apply kind_small.
    destruct E as (O & <- & <- & S & K & E). rewrite <- O in E.
    apply body_told in E; try assumption; [|intros p c c' q q'; apply sub_header_told|reflexivity].
    repeat split; [apply E|]. cbn [reported_srid].
    destruct s as [[]|], s' as [[]|]; cbn in S; try congruence; reflexivity.
Qed.

(** ** What the SpatiaLite writer writes *)
Lemma marked_told : forall z m g g' r r', kind_code g = kind_code g' -> encodable g -> encodable g' ->
  marked (spatialite_sub_header z m) (coord_bytes z m) [] g ++ r = marked (spatialite_sub_header z m) (coord_bytes z m) [] g' ++ r' ->
  retained z m g = retained z m g'.
Proof.
  intros z m g g' r r' K G G' E.
  assert (H : forall p c c' r r', small_code c -> small_code c' ->
    spatialite_sub_header z m (little p) c ++ r = spatialite_sub_header z m (little p) c' ++ r' ->
    little p = little p /\ c = c' /\ r = r') by (intros p c c' q q'; apply sub_header_told).
  assert (B : body (spatialite_sub_header z m) (coord_bytes z m) little [] g ++ r =
              body (spatialite_sub_header z m) (coord_bytes z m) little [] g' ++ r' -> retained z m g = retained z m g').
  { intros X. apply body_told in X; try assumption; [apply X|reflexivity]. }
  set (Q := fun n => N.of_nat n < 2 ^ 32).
  assert (MR : told (on_rings coord64 Q) (marked_rings (coord_bytes z m)) (marked_rings (coord_bytes z m)) (map (map (stored z m)))).
  { intros a b q q' [A1 A2] [B1 B2] X. unfold marked_rings in X. rewrite <- !app_assoc in X.
    apply count_told in X; try assumption. destruct X as [L X].
    exact (told_all _ _ _ _ _ _ (told_marked _ _ _ _ _ _ [xfe] (line_told z m LE)) _ _ _ _ L A2 B2 X). }
  assert (MS : forall p, told (fun l => Q (length l) /\ Forall (on_segment coord64 Q) l)
    (marked_segments (spatialite_sub_header z m) (coord_bytes z m) p) (marked_segments (spatialite_sub_header z m) (coord_bytes z m) p)
    (map (map_segment (stored z m)))).
  { intros p. apply members_told; [reflexivity|]. intros q. apply told_marked. now apply segment_told. }
  assert (MC : forall p, told (on_curve coord64 Q) (marked_curve (spatialite_sub_header z m) (coord_bytes z m) p)
    (marked_curve (spatialite_sub_header z m) (coord_bytes z m) p) (map_curve (stored z m))).
  { intros p [a|a|a] [b|b|b] q q' A C X; unfold marked_curve in X; rewrite <- ?app_assoc in X;
      try (exfalso; unfold curve_bytes, linestring_bytes, arc_bytes in X; rewrite <- ?app_assoc in X;
           apply sub_header_told in X; [|unfold small_code; lia..]; destruct X as (_ & X & _); discriminate X).
    - apply (curve_told z m _ little little H p (CvLine a) (CvLine b)) in X; try assumption.
      destruct X as [X1 X]. cbn [app] in X. injection X as X. now split.
    - apply (curve_told z m _ little little H p (CvArc a) (CvArc b)) in X; try assumption.
      destruct X as [X1 X]. cbn [app] in X. injection X as X. now split.
    - apply sub_header_told in X; [|unfold small_code; lia..]. destruct X as (_ & _ & X).
      apply MS in X; try assumption. destruct X as [X1 X]. cbn [app] in X. injection X as X. cbn [map_curve]. now rewrite X1. }
  assert (MP : forall c, small_code c -> told (on_rings coord64 Q)
    (fun r => (spatialite_sub_header z m LE c ++ marked_rings (coord_bytes z m) r) ++ [xfe])
    (fun r => (spatialite_sub_header z m LE c ++ marked_rings (coord_bytes z m) r) ++ [xfe]) (map (map (stored z m)))).
  { intros c L. apply told_marked. intros a b q q' A C X. rewrite <- !app_assoc in X.
    apply sub_header_told in X; try assumption. destruct X as (_ & _ & X). now apply MR. }
  unfold encodable in G, G'.
  destruct g, g'; try discriminate K; try (now apply B); cbn [marked on_geom] in E, G, G'; unfold retained; cbn [map_geom]; f_equal.
  - now apply MR in E.
  - now apply MS in E.
  - apply (members_told little little _ _ _ _ _ _ [] eq_refl MC) in E; [apply E|assumption..].
  - now apply MR in E.
  - apply (members_told little little _ _ _ _ _ _ [] eq_refl (fun _ => MP 3 ltac:(unfold small_code; lia))) in E; [apply E|assumption..].
  - apply (members_told little little _ _ _ _ _ _ [] eq_refl (fun _ => MP 17 ltac:(unfold small_code; lia))) in E; [apply E|assumption..].
Qed.
