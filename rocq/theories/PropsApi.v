(** * The API client: requests (C85, C86) and responses (C87) *)
From Coq Require Import Ascii String.
From Verif Require Import Base Types Text Json SpecText PropsText Api SpecApi ApiProofs.
Local Open Scope string_scope.
Local Open Scope N_scope.
Local Open Scope list_scope.

(** the calls whose request is what it should be *)
Definition absolute (c : Call) : bool := match c with GetPeer _ | GetEvents _ => true | _ => false end.
Definition unreadable (c : Call) : bool := match c with GetBlobSidecars _ (_ :: _) | PostLiveness _ (_ :: _) => true | _ => false end.

Definition routed (c : Call) : Prop :=
  match request c with
  | Some r => hd 0 (rq_path r) = 101 /\ dispatch endpoints (split slash (rq_path r)) r = Some c
  | None => False
  end.
Ltac abstracts := repeat match goal with
  | H : state_ok ?i |- _ => pose proof (a_state_text i H); pose proof (proj1 (plain_state i H)); clear H; generalize dependent (state_id_text i); intros
  | H : block_ok ?i |- _ => pose proof (a_block_text i H); pose proof (proj1 (plain_block i H)); clear H; generalize dependent (block_id_text i); intros
  | H : validator_ok ?i |- _ => pose proof (a_validator_text i H); pose proof (proj1 (plain_validator i H)); clear H; generalize dependent (pki_text i); intros
  | H : u64 ?n |- _ => pose proof (number_text n H); pose proof (proj1 (plain_number n H)); clear H; generalize dependent (u64_text n); intros
  | H : of_len ?k ?b |- _ => pose proof (hex_of_text k b H); pose proof (proj1 (plain_hex k b H)); clear H; generalize dependent (to_hex b); intros
  end.
Ltac norm := lazy -[a_state a_block a_validator number hex_of a_status a_peer_state a_direction a_validation a_fork all_of a_index_body index_strings not].
Ltac finish :=
  repeat match goal with H : ?x = Some _ |- _ => revert H end; norm; intros;
  repeat match goal with H : ?x = Some _ |- _ => rewrite H; clear H end; reflexivity.
Ltac splits := repeat first
  [ rewrite split_mid by first [assumption | reflexivity | discriminate] | rewrite split_end by first [assumption | reflexivity | discriminate] ].
Ltac go := split; [reflexivity|]; cbn [rq_path]; splits; finish.
Ltac opts := repeat match goal with H : context [opt_all _ ?o] |- _ => destruct o; cbn [opt_all] in H end.
Ltac conj := repeat match goal with H : _ /\ _ |- _ => destruct H end.
Lemma validators_listed v l : Forall validator_ok (v :: l) -> all_of a_validator (split comma (join_comma (map pki_text (v :: l)))) = Some (v :: l).
Proof. apply listed_text; [exact a_validator_text|exact plain_validator]. Qed.
Lemma all_true {A} (l : list A) : Forall (fun _ => True) l. Proof. induction l; constructor; auto. Qed.
Lemma status_listed v l : all_of a_status (split comma (join_comma (map status_text (v :: l)))) = Some (v :: l).
Proof. apply listed_text with (fun _ => True); [intros; apply a_status_text|intros; apply plain_status|apply all_true]. Qed.
Lemma peer_states_listed v l : all_of a_peer_state (split comma (join_comma (map peer_state_text (v :: l)))) = Some (v :: l).
Proof. apply listed_text with (fun _ => True); [intros; apply a_peer_state_text|intros; apply plain_peer_state|apply all_true]. Qed.
Lemma directions_listed v l : all_of a_direction (split comma (join_comma (map orientation_text (v :: l)))) = Some (v :: l).
Proof. apply listed_text with (fun _ => True); [intros; apply a_direction_text|intros; apply plain_direction|apply all_true]. Qed.

Lemma request_routed c : call_ok c -> absolute c = false -> unreadable c = false -> routed c.
Proof.
  intros H A U. unfold routed.
  destruct c; try discriminate A; cbn [call_ok] in H; conj; opts.
  all: try (cbn [request get post query query_opt omap version_header rq_method rq_path rq_query rq_version rq_body]; abstracts; go; fail).
  - (* validators *)
    destruct ids as [|v ids], statuses as [|st sts]; cbn [request get query_list map query rq_method rq_path rq_query rq_version rq_body app].
    + abstracts. go.
    + pose proof (status_listed st sts) as L. cbn [map] in L. generalize dependent (join_comma (status_text st :: map status_text sts)). intros. abstracts. go.
    + pose proof (validators_listed _ _ H0) as L. cbn [map] in L. generalize dependent (join_comma (pki_text v :: map pki_text ids)). intros. abstracts. go.
    + pose proof (status_listed st sts) as L. cbn [map] in L. generalize dependent (join_comma (status_text st :: map status_text sts)). intros.
      pose proof (validators_listed _ _ H0) as L'. cbn [map] in L'. generalize dependent (join_comma (pki_text v :: map pki_text ids)). intros. abstracts. go.
  - (* validator *)
    cbn [request get]. abstracts. split; [reflexivity|]. cbn [rq_path]. splits.
    match goal with |- context [tl (txt "/validators/" ++ ?y)] => change (tl (txt "/validators/" ++ y)) with (txt "validators/" ++ y) end. splits. finish.
  - (* balances *)
    destruct ids as [|v ids]; cbn [request get query_list map query rq_method rq_path rq_query rq_version rq_body app].
    + abstracts. go.
    + pose proof (validators_listed _ _ H0) as L. cbn [map] in L. generalize dependent (join_comma (pki_text v :: map pki_text ids)). intros. abstracts. go.
  - destruct f, v as [[]|]; split; reflexivity.
  - destruct f, v as [[]|]; split; reflexivity.
  - destruct indices as [|n l]; [|discriminate U]. cbn [request get]. abstracts. go.
  - (* peers *)
    destruct states as [|v vs], orientations as [|o os]; cbn [request get query_list map query rq_method rq_path rq_query rq_version rq_body app].
    + split; reflexivity.
    + pose proof (directions_listed o os) as L. cbn [map] in L. generalize dependent (join_comma (orientation_text o :: map orientation_text os)). intros. go.
    + pose proof (peer_states_listed v vs) as L. cbn [map] in L. generalize dependent (join_comma (peer_state_text v :: map peer_state_text vs)). intros. go.
    + pose proof (directions_listed o os) as L. cbn [map] in L. generalize dependent (join_comma (orientation_text o :: map orientation_text os)). intros.
      pose proof (peer_states_listed v vs) as L'. cbn [map] in L'. generalize dependent (join_comma (peer_state_text v :: map peer_state_text vs)). intros. go.
  - pose proof (a_index_body_strings _ H0). cbn [request post]. generalize dependent (index_strings indices). intros. abstracts. go.
  - pose proof (a_index_body_strings _ H0). cbn [request post]. generalize dependent (index_strings indices). intros. abstracts. go.
  - destruct indices as [|n l]; [|discriminate U]. cbn [request post]. abstracts. go.
Qed.

Lemma dispatch_path table p r q :
  dispatch table p (mkRequest (rq_method r) q (rq_query r) (rq_version r) (rq_body r)) = dispatch table p r.
Proof. induction table as [|[t a] l IH]; [reflexivity|]. cbn [dispatch]. rewrite IH. reflexivity. Qed.

(** ** C85: the node reads the request as the call that was made *)
(** for an endpoint whose path ends in a slash, and every method but two *)
Theorem C85_requests : forall (base : text) (c : Call), call_ok c -> absolute c = false -> unreadable c = false ->
  exists r, send (base ++ txt "/") c = Some r /\ serve (base ++ txt "/") r = Some c.
Proof.
  intros base c H A U. pose proof (request_routed c H A U) as R. unfold routed in R. unfold send. destruct (request c) as [r|]; [|contradiction].
  destruct R as [R1 R2]. eexists. split; [reflexivity|]. unfold serve. cbn [rq_path].
  replace (join (base ++ txt "/") (rq_path r)) with ((base ++ txt "/") ++ rq_path r).
  - rewrite below_app, dispatch_path. exact R2.
  - unfold join. destruct (rq_path r) as [|c0 p]; [discriminate R1|]. cbn [hd] in R1. subst c0. change (txt "/") with [47]. now rewrite up_to_slash_snoc.
Qed.
(** for an endpoint at the root of the server, these two as well *)
Theorem C85_requests_at_root : forall (c : Call), call_ok c -> unreadable c = false ->
  exists r, send (txt "/") c = Some r /\ serve (txt "/") r = Some c.
Proof.
  intros c H U. destruct (absolute c) eqn:A; [|now apply (C85_requests [])]. destruct c; try discriminate A; cbn [call_ok] in H; destruct H as [N0 P].
  - eexists. split; [reflexivity|]. destruct topic as [|a t]; [congruence|]. reflexivity.
  - eexists. split; [reflexivity|]. unfold serve. cbn [rq_path].
    change (below (txt "/") (join (txt "/") (txt "/eth/v1/node/peers/" ++ id))) with (Some (txt "eth/v1/node/peers/" ++ id)). cbv iota beta.
    splits. destruct id as [|a t]; [congruence|]. reflexivity.
Qed.
(** so two different calls never send the same request *)
Theorem C85_injective : forall (base : text) (c d : Call), call_ok c -> call_ok d -> unreadable c = false -> unreadable d = false ->
  (base = [] \/ absolute c = false /\ absolute d = false) -> send (base ++ txt "/") c = send (base ++ txt "/") d -> c = d.
Proof.
  intros base c d Hc Hd Uc Ud B E.
  assert (X : exists r, send (base ++ txt "/") c = Some r /\ serve (base ++ txt "/") r = Some c)
    by (destruct B as [->|[A _]]; [now apply C85_requests_at_root|now apply C85_requests]).
  assert (Y : exists r, send (base ++ txt "/") d = Some r /\ serve (base ++ txt "/") r = Some d)
    by (destruct B as [->|[_ A]]; [now apply C85_requests_at_root|now apply C85_requests]).
  destruct X as (r & X1 & X2), Y as (r' & Y1 & Y2). congruence.
Qed.
(** the blob sidecars of some indices cannot be asked for: no request is sent at all *)
Theorem C85_blob_indices_refuted : forall (base : text) (b : BlockId) (i : N) (l : list N), send base (GetBlobSidecars b (i :: l)) = None.
Proof. reflexivity. Qed.
(** the liveness of some validators is asked for with a body that the node does not read *)
Theorem C85_liveness_refuted : forall (base : text) (e i : N) (l : list N), u64 e ->
  exists r, send (base ++ txt "/") (PostLiveness e (i :: l)) = Some r /\ serve (base ++ txt "/") r = None.
Proof.
  intros base e i l H. eexists. split; [reflexivity|]. unfold serve. cbn [rq_path].
  replace (join (base ++ txt "/") (txt "eth/v1/validator/liveness/" ++ u64_text e)) with ((base ++ txt "/") ++ txt "eth/v1/validator/liveness/" ++ u64_text e).
  - rewrite below_app. abstracts. splits. finish.
  - change (txt "/") with [47]. cbn -[u64_text up_to_slash]. now rewrite up_to_slash_snoc.
Qed.
Example C85_example :
  call_ok (GetCommittees (SSlot 7) None (Some 3) None) /\
  request (GetCommittees (SSlot 7) None (Some 3) None) =
    Some (mkRequest GET (txt "eth/v1/beacon/states/7/committees") [(txt "index", txt "3")] None None) /\
  serve (txt "/node/") (mkRequest GET (txt "/node/eth/v1/beacon/states/7/committees") [(txt "index", txt "3")] None None)
    = Some (GetCommittees (SSlot 7) None (Some 3) None) /\
  request (GetValidators SHead [ByIndex 12; ByIndex 5] [Active]) =
    Some (mkRequest GET (txt "eth/v1/beacon/states/head/validators") [(txt "id", txt "12,5"); (txt "status", txt "active")] None None).
Proof. repeat split; reflexivity. Qed.

(** ** C86: every request goes below the path of the endpoint *)
Lemma query_path k v r r' : query k v r = Some r' -> exists r0, r = Some r0 /\ rq_path r' = rq_path r0.
Proof. unfold query. destruct r as [r0|]; [|discriminate]. destruct v; [|discriminate]. intro E. exists r0. inversion E. auto. Qed.
Lemma query_opt_path k v r r' : query_opt k v r = Some r' -> exists r0, r = Some r0 /\ rq_path r' = rq_path r0.
Proof. destruct v; [apply query_path|]. cbn. eauto. Qed.
Lemma query_list_path k v r r' : query_list k v r = Some r' -> exists r0, r = Some r0 /\ rq_path r' = rq_path r0.
Proof. destruct v; [cbn; eauto|apply query_path]. Qed.
Lemma version_path f r r' : version_header f r = Some r' -> exists r0, r = Some r0 /\ rq_path r' = rq_path r0.
Proof. unfold version_header. destruct r as [r0|]; [|discriminate]. intro E. exists r0. inversion E. auto. Qed.
Lemma relative_path c r : absolute c = false -> request c = Some r -> exists p, rq_path r = 101 :: p.
Proof.
  intros A E. destruct c; try discriminate A; cbn [request] in E;
    repeat match goal with
    | H : query _ _ _ = Some _ |- _ => apply query_path in H as (? & H & ->)
    | H : query_opt _ _ _ = Some _ |- _ => apply query_opt_path in H as (? & H & ->)
    | H : query_list _ _ _ = Some _ |- _ => apply query_list_path in H as (? & H & ->)
    | H : version_header _ _ = Some _ |- _ => apply version_path in H as (? & H & ->)
    end; try (inversion E; cbn; eexists; reflexivity).
  destruct indices; [inversion E; cbn; eexists; reflexivity|discriminate E].
Qed.
Theorem C86_below_partial : forall (base : text) (c : Call) (r : Request), absolute c = false -> send (base ++ txt "/") c = Some r ->
  exists p, rq_path r = base ++ txt "/" ++ p.
Proof.
  intros base c r A. unfold send. destruct (request c) as [r0|] eqn:E; [|discriminate]. intro R. inversion R. cbn [rq_path].
  destruct (relative_path c r0 A E) as (p & ->). exists (101 :: p). unfold join. change (txt "/") with [47]. rewrite up_to_slash_snoc. now rewrite <- app_assoc.
Qed.
(** the requests for one peer and for events leave the endpoint's path, unless the endpoint is the root of the server; the node does not get them *)
Lemma split_nonempty (base : text) : base <> [] -> hd 0 base = 47 -> exists a l, split slash base = [] :: a :: l.
Proof.
  intros N0 H. destruct base as [|c b]; [congruence|]. cbn [hd] in H. subst c. cbn [split]. change (47 =? slash) with true. cbv iota.
  destruct (split_cons slash b) as (h & l & ->). eauto.
Qed.
Lemma arguments_length t : forall p l, arguments t p = Some l -> List.length t = List.length p.
Proof.
  induction t as [|w t IH]; intros p l E; destruct p as [|x p]; try discriminate E; [reflexivity|]. cbn [arguments] in E. cbn [List.length]. f_equal.
  destruct (is "*" w).
  - destruct (arguments t p) as [l'|] eqn:X; [|discriminate E]. eapply IH, X.
  - destruct (text_eqb x w); [|discriminate E]. eapply IH, E.
Qed.
Lemma dispatch_one h r : dispatch endpoints [h] r = None.
Proof.
  assert (G : forall tb, forallb (fun e => negb (Nat.eqb (List.length (split slash (text_of (fst e)))) 1)) tb = true -> dispatch tb [h] r = None).
  { induction tb as [|[t a] tb IH]; intro F; [reflexivity|]. cbn [forallb fst] in F. apply andb_true_iff in F as [F1 F2]. cbn [dispatch].
    destruct (arguments (split slash (text_of t)) [h]) eqn:E; [|now apply IH]. apply arguments_length in E. rewrite E in F1. discriminate F1. }
  apply G. reflexivity.
Qed.
Theorem C86_peer_refuted : forall (base id : text), base <> [] -> name_ok id ->
  exists r, send (base ++ txt "/") (GetPeer id) = Some r /\ rq_path r = txt "/eth/v1/node/peers/" ++ id /\ serve (base ++ txt "/") r = None.
Proof.
  intros base id N0 [I S]. eexists. split; [reflexivity|]. split; [reflexivity|]. unfold serve. cbn [rq_path].
  change (join (base ++ txt "/") (txt "/eth/v1/node/peers/" ++ id)) with (txt "/eth/v1/node/peers/" ++ id).
  destruct (below (base ++ txt "/") (txt "/eth/v1/node/peers/" ++ id)) as [rest|] eqn:E; [|reflexivity]. apply below_iff in E.
  assert (B : hd 0 base = 47) by (destruct base as [|c b]; [congruence|]; apply (f_equal (hd 0)) in E; cbn in E; now rewrite <- E).
  apply (f_equal (split slash)) in E. rewrite <- app_assoc in E. change (txt "/" ++ rest) with (slash :: rest) in E. rewrite split_sep in E.
  rewrite split_end in E by (assumption || reflexivity || discriminate). destruct (split_nonempty base N0 B) as (a & l & Es). rewrite Es in E. clear Es.
  destruct (split_cons slash rest) as (h & u & Er). rewrite Er in *. cbv - [not] in E. clear Er.
  destruct l as [|? [|? [|? [|? l]]]]; inversion E; subst; try reflexivity; [apply dispatch_one|now destruct l].
Qed.
Theorem C86_events_refuted : forall (base topic : text), base <> [] ->
  exists r, send (base ++ txt "/") (GetEvents topic) = Some r /\ rq_path r = txt "/eth/v1/events" /\ serve (base ++ txt "/") r = None.
Proof.
  intros base id N0. eexists. split; [reflexivity|]. split; [reflexivity|]. unfold serve. cbn [rq_path].
  change (join (base ++ txt "/") (txt "/eth/v1/events")) with (txt "/eth/v1/events").
  destruct (below (base ++ txt "/") (txt "/eth/v1/events")) as [rest|] eqn:E; [|reflexivity]. apply below_iff in E.
  assert (B : hd 0 base = 47) by (destruct base as [|c b]; [congruence|]; apply (f_equal (hd 0)) in E; cbn in E; now rewrite <- E).
  apply (f_equal (split slash)) in E. rewrite <- app_assoc in E. change (txt "/" ++ rest) with (slash :: rest) in E. rewrite split_sep in E.
  destruct (split_nonempty base N0 B) as (a & l & Es). rewrite Es in E. clear Es.
  destruct (split_cons slash rest) as (h & u & Er). rewrite Er in *. cbv - [not] in E. clear Er.
  destruct l as [|? [|? l]]; inversion E; subst; try reflexivity. now destruct l.
Qed.
(** the last part of an endpoint's path is dropped if no slash follows it *)
Theorem C86_no_trailing_slash_refuted : forall (base last : text) (c : Call), ~ In slash last ->
  send (base ++ txt "/" ++ last) c = send (base ++ txt "/") c.
Proof.
  intros base last c H. unfold send. destruct (request c) as [r|]; [|reflexivity]. do 2 f_equal. unfold join.
  assert (U : up_to_slash (base ++ txt "/" ++ last) = up_to_slash (base ++ txt "/")).
  { change (txt "/") with [47]. rewrite up_to_slash_snoc. induction base as [|c0 b IH].
    - cbn [app up_to_slash]. now rewrite up_to_slash_plain.
    - cbn [app up_to_slash]. cbn [app] in IH. rewrite IH. destruct (b ++ [47]) eqn:E; [now destruct b|reflexivity]. }
  rewrite U. reflexivity.
Qed.
Example C86_example :
  (exists r, send (txt "/beacon/") GetGenesis = Some r /\ rq_path r = txt "/beacon/eth/v1/beacon/genesis") /\
  (exists r, send (txt "/beacon") GetGenesis = Some r /\ rq_path r = txt "/eth/v1/beacon/genesis") /\
  (exists r, send (txt "/beacon/") (GetPeer (txt "QmY")) = Some r /\ rq_path r = txt "/eth/v1/node/peers/QmY").
Proof. repeat split; eexists; split; reflexivity. Qed.

Print Assumptions C85_requests.
Print Assumptions C85_requests_at_root.
Print Assumptions C85_injective.
Print Assumptions C85_blob_indices_refuted.
Print Assumptions C85_liveness_refuted.
Print Assumptions C86_below_partial.
Print Assumptions C86_peer_refuted.
Print Assumptions C86_events_refuted.
Print Assumptions C86_no_trailing_slash_refuted.
