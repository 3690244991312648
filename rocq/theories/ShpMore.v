(** Truncated records, headers, index files and the geometry iterator (C40, C41, C50). *)
From Coq Require Import String Ascii.
From Coq Require Import List NArith ZArith Lia Bool ZifyBool ZifyNat ZifyN.
From Coq Require Import Init.Byte.
From Verif Require Import Base BaseLemmas Float Event EventLemmas Claims Geom FeatureSpec WkbModel WkbRead WkbInv.
From Verif Require Import ShpModel ShpSpec ShpTop ShpFeatures ShpSafe.
Import ListNotations.
Local Open Scope nat_scope.
Local Open Scope list_scope.

(** ** Extension of the input *)

(** programs without property callbacks *)
Definition plain_prog {A} (g : prog A) : Prop := exists l r, g = calls l (Done r).

Lemma plain_done : forall A (r : res A), plain_prog (Done r).
Proof. intros. now exists [], r. Qed.
Lemma plain_call : forall e, plain_prog (pcall e).
Proof. intros. now exists [e], (Ok tt). Qed.
Lemma plain_bind : forall A B (g : prog A) (f : A -> prog B),
  plain_prog g -> (forall a, plain_prog (f a)) -> plain_prog (pbind g f).
Proof.
  intros A B g f [l [r ->]] H. rewrite pbind_calls. destruct r as [a|e]; cbn [pbind].
  - destruct (H a) as [l2 [r2 ->]]. exists (l ++ l2), r2. now rewrite calls_app.
  - now exists l, (Err e).
Qed.
Lemma plain_for : forall A (f : nat -> A -> prog unit) l i,
  (forall k a, plain_prog (f k a)) -> plain_prog (pfor f i l).
Proof.
  induction l as [|a l IH]; intros i H; cbn [pfor]; [apply plain_done|].
  apply plain_bind; [apply H|]. intros. now apply IH.
Qed.

Ltac plain :=
  repeat first
    [ apply plain_done | apply plain_call
    | match goal with |- plain_prog (pthen _ _) => apply plain_bind; intros
      | |- plain_prog (pbind _ _) => apply plain_bind; intros
      | |- plain_prog (pfor _ _ _) => apply plain_for; intros
      | |- plain_prog (plift _) => apply plain_done
      | |- plain_prog (pret _) => apply plain_done
      | |- plain_prog (if ?x then _ else _) => destruct x
      | |- plain_prog (match ?x with (_, _) => _ end) => destruct x end
    | progress cbv zeta ].

Lemma plain_emit : forall multi gz gm coords zs ms start n idx,
  plain_prog (emit_points multi gz gm coords zs ms start n idx).
Proof.
  induction n as [|n IH]; intros idx; cbn [emit_points]; [apply plain_done|].
  apply plain_bind; [|intros; apply IH]. unfold emit_point. plain.
Qed.
Lemma plain_multipart : forall ck d as_poly mp, plain_prog (process_multipart ck d as_poly mp).
Proof.
  intros. unfold process_multipart. plain.
  all: unfold process_geom_part, process_part; plain; apply plain_emit.
Qed.

Section Class.
  Context {P : forall A, rd A -> Prop} {HP : rd_class P}.
  Arguments P {A}.
  Hypothesis P_prog : forall A (g : prog A), plain_prog g -> P (rprog g).

  Lemma rc_lift : forall A B (r : res A) (g : A -> rd B), (forall a, P (g a)) -> P (rthen r g).
  Proof.
    intros A B r g H. unfold rthen. apply rc_bind; [|exact H].
    destruct r as [a|e]; [apply (rc_ret A a)|apply (rc_fail A e)].
  Qed.
  Lemma rc_list : forall A (f : rd A) n, P f -> P (r_list f n).
  Proof.
    induction n as [|n IH]; intros H; cbn [r_list]; [apply rc_ret|].
    apply rc_bind; [exact H|]. intros x. apply rc_bind; [now apply IH|]. intros; apply rc_ret.
  Qed.

  Ltac go :=
    repeat first
      [ apply rc_ret | apply rc_take | apply rc_call | apply rc_fail
      | match goal with |- P (rmap _ _) => apply rc_map | |- P (rthen _ _) => apply rc_lift; intros
        | |- P (r_list _ _) => apply rc_list
        | |- P (r_f64s _ _) => apply rc_f64s
        | |- P (r_i32 _) => apply rc_map, rc_map, rc_take
        | |- P (r_f64 _) => apply rc_map, rc_take
        | |- P (rbind _ _) => apply rc_bind; intros end
      | progress cbv zeta
      | match goal with |- P (if ?x then _ else _) => destruct x end
      | match goal with |- P (match ?x with _ => _ end) => destruct x end ].

  Lemma rc_xy : forall n, P (read_xy n).
  Proof. intros. unfold read_xy. go. Qed.
  Lemma rc_dim : forall n, P (read_dim_values n).
  Proof. intros. unfold read_dim_values, read_bbox. go. Qed.

  Lemma rc_shape : forall ck d, P (read_shape ck d).
  Proof.
    intros ck d. unfold read_shape, read_shape_rec, read_shape_type. go.
    all: try (unfold read_point; go).
    all: try (unfold read_multipatch; go).
    all: try (unfold read_multipoint, read_bbox; go; try apply rc_xy; try apply rc_dim;
              apply P_prog; plain; apply plain_emit).
    all: unfold read_parts, read_multipart, read_bbox; go; try apply rc_xy; try apply rc_dim;
         apply P_prog, plain_multipart.
  Qed.
End Class.

Lemma ext_prog : forall A (g : prog A), plain_prog g -> ext (rprog g) /\ lin (rprog g).
Proof.
  intros A g [l [r ->]].
  assert (E : forall b, rprog (calls l (Done r)) b =
            calls l (Done (match r with Ok a => Ok (a, b) | Err e => Err e end))).
  { intros b. unfold rprog. rewrite pbind_calls. destruct r; reflexivity. }
  split.
  - intros p t. rewrite !E. destruct r as [a|e].
    + left. exists l, a, p. split; reflexivity.
    + right; left. exists l, e. split; reflexivity.
  - intros b. rewrite E. eauto.
Qed.
Lemma ext_shape : forall ck d, ext (read_shape ck d).
Proof. intros ck d. apply (rc_shape (HP := ext_class)). intros. now apply ext_prog. Qed.

(** a record cut short is an I/O error *)
Theorem truncated_record : forall ck d n sh k,
  is_i32 n -> well_formed sh -> k < length (record_bytes n sh) ->
  exists l l', shape_events d sh (l ++ l') /\
    read_shape ck d (firstn k (record_bytes n sh)) = calls l (Done (Err EIo)).
Proof.
  intros ck d n sh k Hn Hw Hk. destruct (record_reads ck d n sh [] Hn Hw) as [l [Hl Hr]].
  rewrite app_nil_r in Hr. unfold reads in Hr.
  rewrite <- (firstn_skipn k (record_bytes n sh)) in Hr.
  destruct (ext_shape ck d (firstn k (record_bytes n sh)) (skipn k (record_bytes n sh)))
    as [(l1 & a & rest & H1 & H2)|[(l1 & e & H1 & H2)|(l1 & l2 & r & H1 & H2)]].
  - rewrite Hr in H2. apply calls_inj in H2. destruct H2 as [_ H2]. injection H2 as _ H2.
    symmetry in H2. apply app_eq_nil in H2. destruct H2 as [_ H2].
    assert (L : length (skipn k (record_bytes n sh)) = 0) by now rewrite H2.
    rewrite skipn_length in L. lia.
  - rewrite Hr in H2. apply calls_inj in H2. destruct H2 as [_ H2]. discriminate.
  - rewrite Hr in H2. apply calls_inj in H2. destruct H2 as [-> _]. exists l1, l2. split; assumption.
Qed.

(** ** Headers *)
Lemma type_of_number : forall t, shape_type_of (type_number t) = Some t.
Proof. destruct t; reflexivity. Qed.
Lemma number_i32 : forall t, is_i32 (type_number t).
Proof. destruct t; unfold is_i32; cbn; lia. Qed.

Lemma header_reads : forall unused h rest, length unused = 20 -> header_ok h ->
  reads read_header (header_bytes unused h ++ rest) [] h rest.
Proof.
  intros unused h rest Hu [H1 [H2 [H3 H4]]]. unfold read_header, header_bytes. rewrite <- !app_assoc.
  eapply reads_bind0; [apply reads_be32; unfold is_i32; lia|].
  change (9994 =? FILE_CODE)%Z with true. cbv iota.
  eapply reads_bind0; [reflexivity|].
  eapply reads_bind0.
  { unfold reads, rtake. rewrite app_length, Hu. cbn [Nat.add Nat.ltb Nat.leb].
    rewrite firstn_app, skipn_app, Hu, Nat.sub_diag, (firstn_all2 (n := 20)), (skipn_all2 (n := 20)) by lia.
    reflexivity. }
  eapply reads_bind0; [apply reads_be32; exact H1|].
  eapply reads_bind0; [apply reads_le32; exact H2|].
  eapply reads_bind0; [apply reads_type; [apply number_i32|apply type_of_number]|].
  eapply reads_bind0.
  { apply (reads_box 4 (h_bbox h)); [exact H3|exact H4]. }
  destruct h; reflexivity.
Qed.

Lemma wrong_code : forall z rest, is_i32 z -> z <> 9994%Z -> read_header (be32 z ++ rest) = pfail InvalidFileCode.
Proof.
  intros z rest Hz Hn. unfold read_header. unfold rbind at 1.
  rewrite (reads_be32 z rest Hz : _ = _). cbn [calls pbind fst snd].
  destruct (Z.eqb_spec z FILE_CODE) as [E|_]; [contradiction|]. reflexivity.
Qed.

Lemma header_safe : forall b,
  safe (fun r => int_at BE b 24 = Some (h_length (fst r)) /\ exists k, snd r = skipn k b) (read_header b).
Proof.
  intros b. change (read_header b) with (read_header (skipn 0 b)). unfold read_header.
  apply step_i32. intros code _.
  destruct (code =? FILE_CODE)%Z; [|apply safe_fail; discriminate].
  unfold rbind at 1, rret at 1. cbn [pbind pret fst snd].
  apply step_take. intros u Lu _. apply step_i32. intros len El. apply step_i32. intros ver _.
  unfold read_shape_type.
  match goal with |- safe _ (rbind _ _ (skipn ?k b)) => destruct (i32_at LE b k) as [E|[ty [_ E]]] end.
  - rewrite (rbind_assoc_err _ _ _ _ _ _ _ _ E). apply safe_fail. discriminate.
  - rewrite (rbind_assoc_ok _ _ _ _ _ _ _ _ _ E).
    destruct (shape_type_of ty); [|apply safe_fail; discriminate].
    unfold rbind at 1, rret at 1. cbn [pbind pret fst snd]. rewrite f64s_list.
    apply (step_list _ _ _ 8 _ _ _ _ _ _ f64_w). intros l _ _. apply safe_ret. cbn [fst snd h_length].
    split; [exact El|]. eexists. reflexivity.
Qed.

(** ** Index files *)
Lemma index_reads : forall ck unused h l rest, length unused = 20 -> header_ok h ->
  Forall (fun r => is_i32 (fst r) /\ is_i32 (snd r)) l ->
  (h_length h * 2 = 100 + 8 * Z.of_nat (length l))%Z -> (h_length h < 2 ^ 30)%Z ->
  reads (read_index_file ck) (header_bytes unused h ++ index_bytes l ++ rest) [] l rest.
Proof.
  intros ck unused h l rest Hu Hh Hl Hlen Hmax. unfold read_index_file.
  eapply reads_bind0; [apply header_reads; assumption|].
  eapply reads_lift; [apply i32_op_ok; unfold is_i32; lia|].
  eapply reads_lift; [apply i32_op_ok; change HEADER_SIZE with 100%Z; unfold is_i32; lia|].
  cbv zeta. replace (h_length h * 2 - HEADER_SIZE)%Z with (Z.of_nat (length l) * 8)%Z
    by (change HEADER_SIZE with 100%Z; lia).
  rewrite Z.quot_mul by lia. rewrite as_usize_nat by lia.
  eapply reads_lift; [apply reserve_ok; lia|]. rewrite Nat2Z.id.
  apply (reads_list _ _ (fun r => be32 (fst r) ++ be32 (snd r))).
  intros r rest2 Hin. apply (proj1 (Forall_forall _ _) Hl) in Hin. destruct Hin as [Hf Hs].
  rewrite <- app_assoc. eapply reads_bind0; [apply reads_be32; exact Hf|].
  eapply reads_bind0; [apply reads_be32; exact Hs|]. destruct r; apply reads_ret.
Qed.

Lemma pair_w : exists v, reads_w (o <- r_i32 BE ;; z <- r_i32 BE ;; rret (o, z)) 8 v.
Proof.
  exists (fun x => (u32_to_i32 (val_of BE (firstn 4 x)), u32_to_i32 (val_of BE (skipn 4 x)))).
  intros b. unfold r_i32, r_u32, rmap, rbind, rtake, rret.
  destruct (Nat.ltb_spec (length b) 4) as [H|H]; destruct (Nat.ltb_spec (length b) 8) as [H2|H2]; try lia.
  - reflexivity.
  - cbn [pbind pret fst snd]. rewrite skipn_length. destruct (Nat.ltb_spec (length b - 4) 4); [reflexivity|lia].
  - cbn [pbind pret fst snd]. rewrite skipn_length. destruct (Nat.ltb_spec (length b - 4) 4); [lia|].
    cbn [pbind pret fst snd]. rewrite skipn_plus, firstn_firstn, skipn_firstn_comm. reflexivity.
Qed.

(** an index whose header announces between 50 and 2^30 words *)
Lemma index_quiet : forall ck b,
  (forall len, int_at BE b 24 = Some len -> (50 <= len < 2 ^ 30)%Z) -> quiet (read_index_file ck b).
Proof.
  intros ck b H. unfold read_index_file, rbind at 1.
  eapply safe_bind; [apply header_safe|]. intros [h rest] [Eh [k ->]]. cbn [fst snd] in *.
  specialize (H _ Eh). apply (safe_quiet _ (fun _ => True)).
  eapply step_ok; [apply i32_op_ok; unfold is_i32; lia|].
  change HEADER_SIZE with 100%Z.
  eapply step_ok; [apply i32_op_ok; unfold is_i32; lia|]. cbv zeta.
  assert (Hq : (0 <= Z.quot (h_length h * 2 - 100) 8 < 2 ^ 31)%Z).
  { rewrite Z.quot_div_nonneg by lia. split; [apply Z.div_pos; lia|apply Z.div_lt_upper_bound; lia]. }
  destruct (as_usize_pos (Z.quot (h_length h * 2 - 100) 8)) as [_ Hu]; [lia|unfold is_i32; lia|].
  eapply step_ok; [apply reserve_ok; lia|].
  destruct pair_w as [v Hv]. destruct (list_at _ _ 8 v (Z.to_nat (Z.quot (h_length h * 2 - 100) 8)) b k Hv) as [E|[l [E _]]];
    rewrite E; [apply safe_fail; discriminate|now apply safe_ret].
Qed.

(** ** Panics *)
Definition small_patch : list byte := be32 1 ++ be32 0 ++ le32 31.
Definition debug_small : list byte := be32 1 ++ be32 1 ++ le32 0.
Definition minus_one : list byte :=
  be32 1 ++ be32 12 ++ le32 8 ++ flat_map le64 (repeat 0%N 4) ++ le32 (-1).
Definition zigzag : list byte :=
  be32 1 ++ be32 34 ++ le32 5 ++ flat_map le64 (repeat 0%N 4) ++ le32 2 ++ le32 1 ++
  le32 0 ++ le32 5 ++ flat_map le64 [0; 0]%N.
Definition short_index : list byte :=
  header_bytes (repeat x00 20) (mkHeader 0 (repeat 0%N 8) NullShape 1000).

Lemma panic_small : forall ck d, read_shape ck d small_patch = Done (Err EPanic).
Proof. intros [] d; vm_compute; reflexivity. Qed.
Lemma panic_debug_small : forall d, read_shape true d debug_small = Done (Err EPanic).
Proof. intros d; vm_compute; reflexivity. Qed.
Lemma panic_minus : forall ck d, read_shape ck d minus_one = Done (Err EPanic).
Proof. intros [] d; vm_compute; reflexivity. Qed.
Lemma panic_zigzag : forall ck d, read_shape ck d zigzag = Done (Err EPanic).
Proof. intros [] d; vm_compute; reflexivity. Qed.
Lemma panic_index : forall ck, read_index_file ck short_index = Done (Err EPanic).
Proof. intros []; vm_compute; reflexivity. Qed.

(** ** The geometry iterator *)
Lemma shape_next_ok : forall ck leftover S (p : proc S) n sh rest pos len, is_i32 n -> well_formed sh ->
  (len < 2 ^ 32)%N -> (pos + N.of_nat (length (record_bytes n sh)) <= len)%N ->
  exists ev, shape_events (p_dims p) sh ev /\ forall s,
    shape_next ck leftover p (mkIter (record_bytes n sh ++ rest) pos len) s =
    match run p ev s with
    | (s', Ok _) => (mkIter rest (pos + N.of_nat (length (record_bytes n sh))) len, s', Some (Ok tt))
    | (s', Err e) => (mkIter (leftover (record_bytes n sh ++ rest)) pos len, s', Some (Err e))
    end.
Proof.
  intros ck leftover S p n sh rest pos len Hn Hwf Hlen Hpos.
  destruct (record_reads ck (p_dims p) n sh rest Hn Hwf) as [ev [Hev Hr]].
  exists ev. split; [exact Hev|]. intros s.
  pose proof (content_even _ Hwf) as Hw. destruct Hwf as [Hbnd Hwf2].
  assert (Hrl : length (record_bytes n sh) = 8 + length (content sh))
    by (unfold record_bytes, be32; rewrite !app_length, !bytes_of_length; lia).
  unfold shape_next. cbn [it_length it_pos it_source].
  destruct (N.leb_spec len pos); [lia|].
  unfold reads in Hr. rewrite Hr, exec_calls. destruct (run p ev s) as [s' [[]|x]]; [|reflexivity].
  cbn [exec snd]. unfold advance. rewrite uadd_ok by lia. cbn [res_bind].
  assert (Ha : as_usize (words sh) = Z.to_N (words sh)).
  { unfold as_usize. rewrite Z.mod_small; [reflexivity|]. lia. }
  rewrite Ha. rewrite umul_ok by lia. cbn [res_bind].
  rewrite uadd_ok by lia.
  replace (pos + 8 + Z.to_N (words sh) * 2)%N with (pos + N.of_nat (length (record_bytes n sh)))%N by lia.
  reflexivity.
Qed.

Lemma shapes_from : forall ck leftover S (p : proc S) rest len l pos,
  Forall entry_ok l -> (len < 2 ^ 32)%N -> (pos + N.of_nat (length (shp_body l)) = len)%N ->
  exists evs, events_of (p_dims p) l evs /\ forall s,
    consume_shapes ck leftover p (Datatypes.S (length l)) (mkIter (shp_body l ++ rest) pos len) s =
    let (s', r) := run p (concat evs) s in (s', Some r).
Proof.
  intros ck leftover S p rest len. induction l as [|f l IH]; intros pos Hl Hlen Hpos.
  - exists []. split; [constructor|]. intros s. cbn [length consume_shapes shp_body flat_map] in *.
    unfold shape_next. cbn [it_length it_pos]. destruct (N.leb_spec len pos); [reflexivity|lia].
  - inversion Hl as [|? ? [Hn Hwf] Hl']; subst.
    set (rec := record_bytes (en_number f) (en_shape f)) in *.
    assert (Hb : length (shp_body (f :: l)) = length rec + length (shp_body l))
      by (cbn [shp_body flat_map]; now rewrite app_length).
    set (len := (pos + N.of_nat (length (shp_body (f :: l))))%N) in *.
    destruct (shape_next_ok ck leftover S p _ _ (shp_body l ++ rest) pos len Hn Hwf Hlen) as [ev [Hev Hsn]];
      [fold rec; lia|].
    destruct (IH (pos + N.of_nat (length rec))%N Hl' Hlen) as [evs [Hevs Hc]]; [lia|].
    exists (ev :: evs). split; [constructor; assumption|]. intros s.
    change (length (f :: l)) with (Datatypes.S (length l)).
    remember (Datatypes.S (length l)) as n1 eqn:En1. cbn [consume_shapes]. subst n1.
    cbn [shp_body flat_map]. rewrite <- app_assoc. fold (shp_body l). rewrite Hsn.
    cbn [concat]. rewrite run_app. fold rec.
    destruct (run p ev s) as [s2 [[]|x]]; [apply Hc|reflexivity].
Qed.

Lemma shapes_file : forall ck leftover S (p : proc S) h l rest s,
  Forall entry_ok l -> announces h l ->
  exists it evs, iter_geometries ck h (shp_body l ++ rest) = Ok it /\
    events_of (p_dims p) l evs /\
    consume_shapes ck leftover p (Datatypes.S (length l)) it s =
    let (s', r) := run p (concat evs) s in (s', Some r).
Proof.
  intros ck leftover S p h l rest s Hl [Hh1 Hh2].
  destruct (shapes_from ck leftover S p rest (Z.to_N (h_length h * 2)) l 100 Hl) as [evs [He Hc]]; [lia|lia|].
  exists (mkIter (shp_body l ++ rest) 100 (Z.to_N (h_length h * 2))), evs.
  split; [|split; [exact He|apply Hc]].
  unfold iter_geometries. rewrite i32_op_ok by (unfold is_i32; lia). cbn [res_map].
  change (as_usize HEADER_SIZE) with 100%N. unfold as_usize. rewrite Z.mod_small by lia. reflexivity.
Qed.

(** once it has returned None the iterator makes no further callback *)
Lemma shapes_over : forall ck leftover S (p : proc S) it s it' s' k,
  shape_next ck leftover p it s = (it', s', None) ->
  shapes ck leftover p k it' s' = (it', s', repeat None k) /\ it' = it /\ s' = s.
Proof.
  intros ck leftover S p it s it' s' k H.
  assert (Hend : (it_length it <= it_pos it)%N /\ it' = it /\ s' = s).
  { unfold shape_next in H. destruct (N.leb_spec (it_length it) (it_pos it)).
    - injection H as <- <-. auto.
    - destruct (exec p _ s) as [? [[? ?]|?]]; [|discriminate]. destruct (advance ck _ _); discriminate. }
  destruct Hend as [He [-> ->]]. split; [|auto]. induction k as [|k IH]; cbn [shapes repeat]; [reflexivity|].
  unfold shape_next at 1. destruct (N.leb_spec (it_length it) (it_pos it)); [|lia]. now rewrite IH.
Qed.

(** ** Against processors *)
Lemma record_exec : forall ck n sh rest S (p : proc S) s, is_i32 n -> well_formed sh ->
  exists l, shape_events (p_dims p) sh l /\
    exec p (read_shape ck (p_dims p) (record_bytes n sh ++ rest)) s =
    match run p l s with
    | (s', Ok _) => (s', Ok ((n, words sh), rest))
    | (s', Err e) => (s', Err e)
    end.
Proof.
  intros ck n sh rest S p s Hn Hw. destruct (record_reads ck (p_dims p) n sh rest Hn Hw) as [l [Hl Hr]].
  exists l. split; [exact Hl|]. unfold reads in Hr. rewrite Hr, exec_calls.
  now destruct (run p l s) as [s' [[]|e]].
Qed.

Lemma run_calm : forall S (p : proc S), (forall s e, snd (p_step p s e) <> Err EPanic) ->
  forall l s, snd (run p l s) <> Err EPanic.
Proof.
  intros S p Hp. induction l as [|e l IH]; intros s; cbn [run]; [discriminate|].
  specialize (Hp s e). destruct (p_step p s e) as [s' [[]|x]]; [apply IH|exact Hp].
Qed.
Lemma quiet_exec : forall A (g : prog A) S (p : proc S) s, quiet g ->
  (forall s e, snd (p_step p s e) <> Err EPanic) -> snd (exec p g s) <> Err EPanic.
Proof.
  intros A g S p s [l [r [-> Hr]]] Hp. rewrite exec_calls. pose proof (run_calm S p Hp l s) as H.
  destruct (run p l s) as [s' [[]|e]]; cbn [exec snd] in *; [exact Hr|congruence].
Qed.

Lemma record_calm : forall ck b S (p : proc S) s, sane b ->
  (forall s e, snd (p_step p s e) <> Err EPanic) -> snd (exec p (read_shape ck (p_dims p) b) s) <> Err EPanic.
Proof. intros. apply quiet_exec; [now apply record_quiet|assumption]. Qed.

Lemma truncated_exec : forall ck n sh k S (p : proc S) s,
  is_i32 n -> well_formed sh -> k < length (record_bytes n sh) ->
  exists l l', shape_events (p_dims p) sh (l ++ l') /\
    exec p (read_shape ck (p_dims p) (firstn k (record_bytes n sh))) s =
    match run p l s with (s', Ok _) => (s', Err EIo) | (s', Err e) => (s', Err e) end.
Proof.
  intros ck n sh k S p s Hn Hw Hk.
  destruct (truncated_record ck (p_dims p) n sh k Hn Hw Hk) as [l [l' [Hl Hr]]].
  exists l, l'. split; [exact Hl|]. rewrite Hr, exec_calls. now destruct (run p l s) as [s' [[]|e]].
Qed.

Lemma observe_calm : forall A (g : prog A), quiet g -> snd (observe g) <> Err EPanic.
Proof. intros A g H. apply quiet_exec; [exact H|]. intros. cbn. discriminate. Qed.
Lemma header_calm : forall b, snd (observe (read_header b)) <> Err EPanic.
Proof. intros. apply observe_calm. exact (safe_quiet _ _ _ (header_safe b)). Qed.
Lemma index_calm : forall ck b,
  (forall len, int_at BE b 24 = Some len -> (50 <= len < 2 ^ 30)%Z) ->
  snd (observe (read_index_file ck b)) <> Err EPanic.
Proof. intros. apply observe_calm. now apply index_quiet. Qed.
Lemma header_makes : forall unused h rest, length unused = 20 -> header_ok h ->
  makes (read_header (header_bytes unused h ++ rest)) [] (Ok (h, rest)).
Proof. intros. unfold makes. rewrite (header_reads unused h rest H H0 : _ = _). reflexivity. Qed.
Lemma wrong_code_makes : forall z rest, is_i32 z -> z <> 9994%Z ->
  makes (read_header (be32 z ++ rest)) [] (Err InvalidFileCode).
Proof. intros. unfold makes. now rewrite wrong_code. Qed.
Lemma index_makes : forall ck unused h l rest, length unused = 20 -> header_ok h ->
  Forall (fun r => is_i32 (fst r) /\ is_i32 (snd r)) l ->
  (h_length h * 2 = 100 + 8 * Z.of_nat (length l))%Z -> (h_length h < 2 ^ 30)%Z ->
  makes (read_index_file ck (header_bytes unused h ++ index_bytes l ++ rest)) [] (Ok (l, rest)).
Proof.
  intros. unfold makes. now rewrite (index_reads ck unused h l rest H H0 H1 H2 H3 : _ = _).
Qed.

(** ** Framing errors are dropped *)
Definition grumpy : proc unit := {|
  p_dims := xy_dims;
  p_step := fun s e => (s, if is_feature_event e then Err (EUser 1) else Ok tt);
  p_prop := fun s _ _ _ => (s, Ok false)
|}.

Lemma grumpy_perform : forall l, Forall (fun a => match a with Do e => is_feature_event e = false | _ => True end) l ->
  perform grumpy l tt = (tt, Ok tt).
Proof.
  induction l as [|a l IH]; intros H; [reflexivity|]. inversion H as [|? ? H1 H2]; subst.
  destruct a as [e|e|props]; cbn [perform grumpy p_step fst].
  - destruct (is_feature_event e); now apply IH.
  - rewrite H1. now apply IH.
  - assert (Ho : forall q i, offer grumpy i q tt = (tt, Ok tt)).
    { induction q as [|[n v] q IHq]; intros i; [reflexivity|]. cbn. apply IHq. }
    rewrite Ho. now apply IH.
Qed.

Lemma grumpy_ignored : forall ck leftover h l rest more after,
  Forall entry_ok l -> announces h l ->
  exists it, iter_features ck h (shp_body l ++ rest)
               (Some (map (fun f => Ok (en_record f)) l ++ more, after)) = Ok it /\
    consume ck leftover grumpy (S (length l)) it tt = (tt, Some (Ok tt)).
Proof.
  intros ck leftover h l rest more after Hl Hh.
  destruct (consume_file ck leftover unit grumpy h l rest more after tt Hl Hh) as [it [evs [Hi [He Hc]]]].
  exists it. split; [exact Hi|]. rewrite Hc, grumpy_perform; [reflexivity|].
  unfold file_acts. constructor; [exact I|]. apply Forall_app. split; [|repeat constructor].
  clear Hc Hi Hl Hh. generalize 0. induction He as [|f ev l evs Hf He IH]; intros i; cbn [combine flat_mapi]; [constructor|].
  apply Forall_app. split; [|apply IH]. unfold feature_acts. apply Forall_app. split; [repeat constructor|].
  apply Forall_app. split; [|repeat constructor]. cbn [snd].
  pose proof (shape_events_inner _ _ _ Hf) as Hin. clear Hf. induction Hin; cbn [map]; constructor; auto.
Qed.

(** ** A small file *)
Definition f0 : f64 := 0%N.
Definition f1 : f64 := 0x3FF0000000000000%N.
Definition f2 : f64 := 0x4000000000000000%N.
Definition at_ (x y : f64) : coord := mkC x y None None.
Definition some_extent : extent := mkExtent [f0; f0; f2; f2] [f0; f0] [f0; f0].
Definition tall_at (x y z m : f64) : coord := mkC x y (Some z) (Some m).
Definition square (x : f64) : list coord :=
  [tall_at x f0 f1 f2; tall_at x f1 f1 f2; tall_at f2 f1 f1 f2; tall_at f2 f0 f1 f2; tall_at x f0 f1 f2].
(** two clockwise rings with a hole between them *)
Definition island : shape := Areas Tall true some_extent [square f0; rev (square f1); square f1].
Definition dot (x : f64) : shape := OnePoint Flat (at_ x f1).
Definition place (name : string) (sh : shape) : entry :=
  mkEntry [("name"%string, Character (Some name)); ("note"%string, Memo "x"%string); ("size"%string, Numeric None)] 1 sh.
Definition places : list entry := [place "a" island; place "b" (dot f2); place "c" Null]%string.
Definition places_header : header := mkHeader 358 (repeat f0 8) PolygonZ 1000.

Lemma island_ok : well_formed island.
Proof.
  split; [vm_compute; reflexivity|]. cbn [island]. split; [exact I|].
  assert (Hf : f64_ok f0 /\ f64_ok f1 /\ f64_ok f2) by (repeat split).
  destruct Hf as [H0 [H1 H2]].
  split; [unfold extent_ok; cbn; repeat split; repeat constructor; assumption|].
  repeat constructor; cbn; try assumption.
Qed.
Lemma places_ok : Forall entry_ok places.
Proof.
  assert (H0 : f64_ok f1) by reflexivity. assert (H2 : f64_ok f2) by reflexivity.
  constructor; [split; [unfold is_i32; cbn; lia|apply island_ok]|].
  constructor; [split; [unfold is_i32; cbn; lia|]|].
  { split; [vm_compute; reflexivity|]. cbn. repeat split; try assumption. }
  constructor; [|constructor]. split; [unfold is_i32; cbn; lia|]. split; [vm_compute; reflexivity|exact I].
Qed.
Lemma places_announced : announces places_header places.
Proof. split; vm_compute; reflexivity. Qed.
Lemma places_header_ok : header_ok places_header.
Proof.
  assert (H0 : f64_ok f0) by reflexivity.
  split; [unfold is_i32; cbn; lia|]. split; [unfold is_i32; cbn; lia|]. split; [reflexivity|].
  repeat constructor; assumption.
Qed.

(** the two polygons of the record *)
Lemma island_groups : forall ck,
  makes (read_shape ck xy_dims (record_bytes 7 island))
    (gevents false 0 (GMultiPolygon
        [[map (visible xy_dims) (square f0); rev (map (visible xy_dims) (square f1))];
         [map (visible xy_dims) (square f1)]]))
    (Ok ((7, words island)%Z, [])).
Proof. intros []; vm_compute; reflexivity. Qed.

(** ** Histories *)

(** the first of two attribute records cannot be read; the caller goes on *)
Definition two_dots : list entry := [place "a" (dot f1); place "b" (dot f2)]%string.
Definition two_dots_header : header := mkHeader 78 (repeat f0 8) Point 1000.
Lemma two_dots_ok : Forall entry_ok two_dots /\ announces two_dots_header two_dots.
Proof.
  assert (H0 : f64_ok f1) by reflexivity. assert (H2 : f64_ok f2) by reflexivity.
  split; [|split; vm_compute; reflexivity].
  assert (Hd : forall name x, f64_ok x -> entry_ok (place name (dot x))).
  { intros name x Hx. split; [unfold is_i32; cbn; lia|]. split; [vm_compute; reflexivity|].
    cbn. repeat split; assumption. }
  repeat constructor; now apply Hd.
Qed.

Lemma off_by_one : forall ck leftover after, exists it it' trace,
  iter_features ck two_dots_header (shp_body two_dots)
    (Some ([Err DbaseError; Ok (en_record (place "b" Null))], after)) = Ok it /\
  features ck leftover (recorder xy_dims false) 2 it [] =
    (it', trace, [Some (Err DbaseError); Some (Ok (en_record (place "b" Null)))]) /\
  trace = [OEv (DatasetBegin None); OEv (DatasetBegin None); OEv (FeatureBegin 0);
           OEv PropertiesBegin; OProp 0 "name" (CString "b"); OProp 1 "note" (CString "x"); OEv PropertiesEnd;
           OEv GeometryBegin; OEv (PointBegin 0); OEv (Xy f1 f1 0); OEv (PointEnd 0); OEv GeometryEnd;
           OEv (FeatureEnd 0)]%string.
Proof. intros [] leftover after; (eexists _, _, _; split; [vm_compute; reflexivity|]; split; [vm_compute; reflexivity|reflexivity]). Qed.

(** the end of an empty file, asked twice *)
Lemma twice_empty : forall ck leftover after, exists it it',
  iter_features ck (mkHeader 50 (repeat f0 8) Point 1000) [] (Some ([], after)) = Ok it /\
  features ck leftover (recorder xy_dims false) 2 it [] =
    (it', [OEv (DatasetBegin None); OEv DatasetEnd; OEv (DatasetBegin None); OEv DatasetEnd], [None; None]).
Proof. intros [] leftover after; (eexists _, _; split; [vm_compute; reflexivity|vm_compute; reflexivity]). Qed.

Lemma endless_calls : forall ck leftover d records after len pos no k,
  leftover [] = [] -> (pos < len)%N ->
  Forall (fun r => exists x, r = Ok x) records -> (exists x, after = Some (Ok x)) ->
  exists it s', features ck leftover (recorder d false) k (mkFIter (mkIter [] pos len) records after no) [] =
    (it, s', repeat (Some (Err EIo)) k) /\ ~ In (OEv DatasetEnd) s'.
Proof.
  intros ck leftover d records after len pos no k H1 H2 H3 H4.
  pose proof (endless ck leftover d records after len pos no [] k H1 H2 H3 H4) as H.
  destruct (features ck leftover (recorder d false) k _ []) as [[it s'] items]. destruct H as [-> H].
  exists it, s'. split; [reflexivity|]. apply H. intros [].
Qed.
Lemma no_dbf : forall ck h source, iter_features ck h source None = Err MissingDbf.
Proof. reflexivity. Qed.
Lemma places_split : Forall entry_ok (firstn 1 places) /\
  exists f l2, announces places_header (firstn 1 places ++ f :: l2).
Proof.
  split; [apply Forall_forall; intros x Hx; eapply (proj1 (Forall_forall _ _) places_ok); cbn in *; tauto|].
  exists (place "b" (dot f2)), [place "c" Null]. exact places_announced.
Qed.
Lemma patches_silent : forall ck n b rest S (p : proc S) s, is_i32 n -> well_formed (Patches b) ->
  exec p (read_shape ck (p_dims p) (record_bytes n (Patches b) ++ rest)) s = (s, Ok ((n, words (Patches b)), rest)).
Proof.
  intros ck n b rest S p s Hn Hw. destruct (record_reads ck (p_dims p) n _ rest Hn Hw) as [l [Hl Hr]].
  cbn in Hl. subst l. unfold reads in Hr. rewrite Hr. reflexivity.
Qed.
Lemma patch_ok : well_formed (Patches (repeat x00 40)).
Proof. split; [cbn; lia|]. exists 20. reflexivity. Qed.
