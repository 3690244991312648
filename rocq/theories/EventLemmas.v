(** Facts about reader programs and their execution. *)
From Coq Require Import String Ascii.
From Coq Require Import List NArith ZArith Lia Bool.
From Verif Require Import Base Event.
Import ListNotations.

Lemma calls_app : forall A (l1 l2 : list event) (k : prog A),
  calls (l1 ++ l2) k = calls l1 (calls l2 k).
Proof. induction l1 as [|e r IH]; intros l2 k; cbn [calls app]; [reflexivity|now rewrite IH]. Qed.

Lemma pbind_calls : forall A B (l : list event) (k : prog A) (f : A -> prog B),
  pbind (calls l k) f = calls l (pbind k f).
Proof. induction l as [|e r IH]; intros k f; cbn [calls pbind]; [reflexivity|now rewrite IH]. Qed.

Lemma run_app : forall S (p : proc S) l1 l2 s,
  run p (l1 ++ l2) s =
  match run p l1 s with
  | (s', Ok _) => run p l2 s'
  | (s', Err x) => (s', Err x)
  end.
Proof.
  induction l1 as [|e r IH]; intros l2 s; cbn [run app]; [reflexivity|].
  destruct (p_step p s e) as [s' [u|x]]; [apply IH|reflexivity].
Qed.

Lemma exec_calls : forall S A (p : proc S) l (k : prog A) s,
  exec p (calls l k) s =
  match run p l s with
  | (s', Ok _) => exec p k s'
  | (s', Err x) => (s', Err x)
  end.
Proof.
  induction l as [|e r IH]; intros k s; cbn [run calls exec]; [reflexivity|].
  destruct (p_step p s e) as [s' [u|x]]; [apply IH|reflexivity].
Qed.

Lemma calls_inj : forall A l1 l2 (r1 r2 : res A),
  calls l1 (Done r1) = calls l2 (Done r2) -> l1 = l2 /\ r1 = r2.
Proof.
  induction l1 as [|e l IH]; intros [|e2 l2] r1 r2 H; cbn [calls] in H; try discriminate.
  - split; [reflexivity|congruence].
  - injection H as He Hk. destruct (IH _ _ _ Hk) as [-> ->]. subst. split; reflexivity.
Qed.

Lemma recorder_run : forall d a l s,
  run (recorder d a) l s = (s ++ map OEv l, Ok tt)%list.
Proof.
  induction l as [|e r IH]; intros s; cbn [run map].
  - now rewrite app_nil_r.
  - cbn [recorder p_step]. rewrite IH, <- app_assoc. reflexivity.
Qed.

Definition ok_calls (l : list event) : prog unit := calls l (Done (Ok tt)).

Lemma pcall_calls : forall e, pcall e = ok_calls [e].
Proof. reflexivity. Qed.

Lemma pthen_calls : forall l1 l2, pthen (ok_calls l1) (ok_calls l2) = ok_calls (l1 ++ l2).
Proof. intros. unfold pthen, ok_calls. rewrite pbind_calls, calls_app. reflexivity. Qed.

Lemma pfor_calls : forall A (f : nat -> A -> prog unit) (ev : nat -> A -> list event) l i,
  (forall k a, In a l -> f k a = ok_calls (ev k a)) ->
  pfor f i l = ok_calls (flat_mapi ev i l).
Proof.
  induction l as [|a r IH]; intros i H; cbn [pfor flat_mapi]; [reflexivity|].
  rewrite H, IH, pthen_calls; [reflexivity|intros; apply H; now right|now left].
Qed.

Lemma flat_mapi_mapi : forall A B (f : nat -> A -> B) l i,
  flat_mapi (fun k a => [f k a]) i l = mapi f i l.
Proof. induction l as [|a r IH]; intros i; cbn; [reflexivity|]. now rewrite IH. Qed.

Lemma pfor_mapi : forall A (f : nat -> A -> prog unit) (ev : nat -> A -> event) l i,
  (forall k a, In a l -> f k a = ok_calls [ev k a]) ->
  pfor f i l = ok_calls (mapi ev i l).
Proof. intros. rewrite (pfor_calls _ _ (fun k a => [ev k a])) by assumption. now rewrite flat_mapi_mapi. Qed.
