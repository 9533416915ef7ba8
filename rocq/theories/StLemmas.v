(** * Lemmas about stateful computations: inversion, running, loops, frames (proof file; no model definitions) *)
From Verif Require Import Base BaseLemmas Types Block.

(** ** Running *)
Lemma run_rd {S A B} (g : S -> res A) (k : A -> St S B) s a : g s = Ok a -> sbind (rd g) k s = k a s.
Proof. intros H. unfold sbind, rd. rewrite H. reflexivity. Qed.
Lemma run_lift {S A B} (r : res A) (k : A -> St S B) s a : r = Ok a -> sbind (lift r) k s = k a s.
Proof. intros ->. reflexivity. Qed.
Lemma run_md {S B} (g : S -> S) (k : unit -> St S B) s : sbind (md g) k s = k tt (g s).
Proof. reflexivity. Qed.
Lemma run_ret {S A B} (a : A) (k : A -> St S B) s : sbind (sret a) k s = k a s.
Proof. reflexivity. Qed.
Lemma run_bind {S A B} (m : St S A) (k : A -> St S B) s a s' : m s = (Ok a, s') -> sbind m k s = k a s'.
Proof. apply sbind_ok. Qed.

(** ** Inversion of successful runs *)
Lemma inv_rd {S A} (g : S -> res A) s a s' : rd g s = (Ok a, s') -> g s = Ok a /\ s' = s.
Proof. unfold rd. intros [= H ->]. split; [exact H|reflexivity]. Qed.
Lemma inv_lift {S A} (r : res A) (s : S) a s' : lift r s = (Ok a, s') -> r = Ok a /\ s' = s.
Proof. unfold lift. intros [= H ->]. split; [exact H|reflexivity]. Qed.
Lemma inv_md {S} (g : S -> S) s u s' : md g s = (Ok u, s') -> s' = g s.
Proof. unfold md. intros [= <- ->]. reflexivity. Qed.
Lemma inv_ret {S A} (a : A) (s : S) b s' : sret a s = (Ok b, s') -> b = a /\ s' = s.
Proof. unfold sret. intros [= -> ->]. split; reflexivity. Qed.

(** invert one layer of [H : m s = (Ok a, s')] *)
Ltac sinv1 H :=
  match type of H with
  | sbind (rd _) _ ?s = (Ok _, _) =>
      let H1 := fresh H in apply sbind_ok_inv in H as (? & ? & H1 & H); apply inv_rd in H1 as [H1 ->]
  | sbind (lift _) _ ?s = (Ok _, _) =>
      let H1 := fresh H in apply sbind_ok_inv in H as (? & ? & H1 & H); apply inv_lift in H1 as [H1 ->]
  | sbind (md _) _ ?s = (Ok _, _) => rewrite run_md in H
  | sbind (sret _) _ ?s = (Ok _, _) => rewrite run_ret in H
  | sbind _ _ ?s = (Ok _, _) =>
      let H1 := fresh H in apply sbind_ok_inv in H as (? & ? & H1 & H)
  | rd _ _ = (Ok _, _) => apply inv_rd in H as [H ->]
  | lift _ _ = (Ok _, _) => apply inv_lift in H as [H ->]
  | md _ _ = (Ok _, _) => apply inv_md in H as ->
  | sret _ _ = (Ok _, _) => apply inv_ret in H as [-> ->]
  end.
Ltac sinv H := repeat (sinv1 H).

Lemma Ok_inj {A} (a b : A) : Ok a = Ok b -> a = b. Proof. congruence. Qed.
Lemma map_err_ok {A} (r : res A) e a : map_err r e = Ok a <-> r = Ok a.
Proof. destruct r; cbn; split; congruence. Qed.
(** invert [H : r = Ok a] down to its elementary facts *)
Ltac rinv H :=
  lazymatch type of H with
  | rbind _ _ = Ok _ => let H1 := fresh H in apply rbind_ok_inv in H as (? & H1 & H); rinv H1; rinv H
  | require _ _ = Ok _ => apply require_ok in H
  | idx _ _ = Ok _ => apply idx_ok in H
  | getN _ _ _ = Ok _ => apply getN_ok in H
  | ok_or _ _ = Ok _ => apply ok_or_ok in H
  | expect _ = Ok _ => apply expect_ok in H
  | map_err _ _ = Ok _ => apply map_err_ok in H
  | Ok _ = Ok _ => apply Ok_inj in H
  | _ => idtac
  end.

(** running [res] computations *)
Lemma run_require c e {B} (k : unit -> res B) : c = true -> rbind (require c e) k = k tt.
Proof. intros ->. reflexivity. Qed.
Lemma run_r {A B} (m : res A) (k : A -> res B) a : m = Ok a -> rbind m k = k a.
Proof. intros ->. reflexivity. Qed.

Lemma swhen_true {S} (m : St S unit) s : swhen true m s = m s. Proof. reflexivity. Qed.
Lemma swhen_false {S} (m : St S unit) s : swhen false m s = (Ok tt, s). Proof. reflexivity. Qed.

(** ** Loops *)
Lemma sfor_nil {S A} (body : A -> St S unit) s : sfor [] body s = (Ok tt, s). Proof. reflexivity. Qed.
Lemma sfor_cons {S A} x l (body : A -> St S unit) s : sfor (x :: l) body s = sbind (body x) (fun _ => sfor l body) s.
Proof. reflexivity. Qed.
Lemma sfor_app {S A} l k (body : A -> St S unit) s : sfor (l ++ k) body s = sbind (sfor l body) (fun _ => sfor k body) s.
Proof.
  revert s; induction l as [|x l IH]; intros s; [reflexivity|]. cbn [app sfor]. rewrite sbind_assoc. unfold sbind at 1 2.
  destruct (body x s) as [[] s1]; try reflexivity. apply IH.
Qed.
(** a loop whose body always succeeds is a fold *)
Lemma sfor_fold {S A} (body : A -> St S unit) (g : A -> S -> S) (P : S -> Prop) l : forall s,
  P s -> (forall x s, In x l -> P s -> body x s = (Ok tt, g x s) /\ P (g x s)) ->
  sfor l body s = (Ok tt, fold_left (fun s x => g x s) l s) /\ P (fold_left (fun s x => g x s) l s).
Proof.
  induction l as [|x l IH]; intros s Hs H; cbn [fold_left]; [split; [reflexivity|exact Hs]|].
  destruct (H x s (or_introl eq_refl) Hs) as [Hb HP]. rewrite sfor_cons, (run_bind _ _ _ _ _ Hb). apply IH; [exact HP|].
  intros y t Hy Ht. apply H; [right; exact Hy|exact Ht].
Qed.

(** a loop over distinct positions of one column *)
Section Column.
Context {S A : Type}.
Variables (get : S -> list A) (set : list A -> S -> S).
Hypothesis get_set : forall l s, get (set l s) = l.
Hypothesis set_set : forall l l' s, set l (set l' s) = set l s.
Hypothesis set_get : forall s, set (get s) s = s.
Lemma column_loop (body : N -> St S unit) (h : N -> A -> A) (s0 : S) : forall l c0,
  NoDup l -> (forall i, In i l -> i < lenN c0) ->
  (forall i a c, In i l -> lenN c = lenN c0 -> nthN c i = Some a -> nthN c0 i = Some a ->
     body i (set c s0) = (Ok tt, set (updN c i (h i a)) s0)) ->
  exists c', sfor l body (set c0 s0) = (Ok tt, set c' s0) /\ lenN c' = lenN c0
    /\ (forall i a, In i l -> nthN c0 i = Some a -> nthN c' i = Some (h i a))
    /\ (forall i, ~ In i l -> nthN c' i = nthN c0 i).
Proof.
  intros l. enough (H : forall c1 c0, lenN c1 = lenN c0 -> NoDup l -> (forall i, In i l -> i < lenN c0) ->
    (forall i, In i l -> nthN c1 i = nthN c0 i) ->
    (forall i a c, In i l -> lenN c = lenN c0 -> nthN c i = Some a -> nthN c0 i = Some a ->
     body i (set c s0) = (Ok tt, set (updN c i (h i a)) s0)) ->
    exists c', sfor l body (set c1 s0) = (Ok tt, set c' s0) /\ lenN c' = lenN c0
    /\ (forall i a, In i l -> nthN c0 i = Some a -> nthN c' i = Some (h i a))
    /\ (forall i, ~ In i l -> nthN c' i = nthN c1 i)).
  { intros c0 Hnd Hlt Hb. destruct (H c0 c0 eq_refl Hnd Hlt (fun _ _ => eq_refl) Hb) as (c' & H1 & H2 & H3 & H4). eauto 6. }
  induction l as [|x l IH]; intros c1 c0 Hlen Hnd Hlt Heq Hb.
  - exists c1. split; [reflexivity|]. split; [exact Hlen|]. split; [intros i a []|reflexivity].
  - inversion Hnd as [|? ? Hx Hnd']; subst.
    destruct (nthN_lt c0 x (Hlt x (or_introl eq_refl))) as [a Ha].
    assert (Ha1 : nthN c1 x = Some a) by (rewrite Heq by (left; reflexivity); exact Ha).
    rewrite sfor_cons, (run_bind _ _ _ _ _ (Hb x a c1 (or_introl eq_refl) Hlen Ha1 Ha)).
    destruct (IH (updN c1 x (h x a)) c0) as (c' & H1 & H2 & H3 & H4).
    + rewrite lenN_updN. exact Hlen.
    + exact Hnd'.
    + intros i Hi. apply Hlt. right; exact Hi.
    + intros i Hi. rewrite nthN_updN_ne by (intros ->; contradiction). apply Heq. right; exact Hi.
    + intros i b c Hi Hc Hn Hn0. apply Hb; [right; exact Hi|exact Hc|exact Hn|exact Hn0].
    + exists c'. split; [exact H1|]. split; [exact H2|]. split.
      * intros i b [->|Hi] Hib; [|apply H3; assumption].
        rewrite H4 by assumption. rewrite nthN_updN_eq; [congruence|]. rewrite Hlen. apply Hlt. left; reflexivity.
      * intros i Hi. rewrite H4 by (intros Hin; apply Hi; right; exact Hin). apply nthN_updN_ne. intros ->. apply Hi. left; reflexivity.
Qed.
End Column.

(** ** Frames: a relation between the state before and after, whatever the outcome *)
Definition pres {S A} (R : S -> S -> Prop) (m : St S A) : Prop := forall s, R s (snd (m s)).

Section Pres.
Context {S : Type} (R : S -> S -> Prop).
Hypothesis R_refl : forall s, R s s.
Hypothesis R_trans : forall a b c, R a b -> R b c -> R a c.
Lemma pres_ret {A} (a : A) : pres R (sret a). Proof. intros s. apply R_refl. Qed.
Lemma pres_rd {A} (g : S -> res A) : pres R (rd g). Proof. intros s. apply R_refl. Qed.
Lemma pres_lift {A} (r : res A) : pres R (lift r). Proof. intros s. apply R_refl. Qed.
Lemma pres_md (g : S -> S) : (forall s, R s (g s)) -> pres R (md g). Proof. intros H s. apply H. Qed.
Lemma pres_bind {A B} (m : St S A) (k : A -> St S B) : pres R m -> (forall a, pres R (k a)) -> pres R (sbind m k).
Proof.
  intros Hm Hk s. unfold sbind. specialize (Hm s). destruct (m s) as [[a|e| |] s1]; cbn in *; try exact Hm.
  eapply R_trans; [exact Hm|apply Hk].
Qed.
Lemma pres_if {A} (c : bool) (m k : St S A) : pres R m -> pres R k -> pres R (if c then m else k).
Proof. intros; destruct c; assumption. Qed.
Lemma pres_when (c : bool) (m : St S unit) : pres R m -> pres R (swhen c m).
Proof. intros; destruct c; [assumption|apply pres_ret]. Qed.
Lemma pres_for {A} (l : list A) body : (forall x, pres R (body x)) -> pres R (sfor l body).
Proof. intros H. induction l as [|x l IH]; cbn [sfor]; [apply pres_ret|]. apply pres_bind; auto. Qed.
Lemma pres_fold {A B} (l : list A) (body : B -> A -> St S B) : (forall b x, pres R (body b x)) -> forall b, pres R (sfold body l b).
Proof. intros H. induction l as [|x l IH]; intros b; cbn [sfold]; [apply pres_ret|]. apply pres_bind; auto. Qed.
(** a read whose result is known to come from the current state *)
Lemma pres_rd_bind {A B} (g : S -> res A) (k : A -> St S B) :
  (forall s a, g s = Ok a -> R s (snd (k a s))) -> pres R (sbind (rd g) k).
Proof. intros H s. unfold sbind, rd. destruct (g s) as [a| | |] eqn:Hg; cbn; try apply R_refl. apply H. exact Hg. Qed.
End Pres.
Lemma pres_weaken {S A} (R R' : S -> S -> Prop) (m : St S A) : (forall a b, R a b -> R' a b) -> pres R m -> pres R' m.
Proof. intros H Hm s. apply H, Hm. Qed.
