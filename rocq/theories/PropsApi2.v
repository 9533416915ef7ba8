(** * C87: what the API client makes of a response *)
From Coq Require Import Ascii String.
From Verif Require Import Base Types Text Json SpecText PropsText Api SpecApi.
Local Open Scope string_scope.
Local Open Scope N_scope.
Local Open Scope list_scope.

Lemma has_key o n v : has o n v -> key n o = Some v.
Proof. intros (kvs & -> & H). exact H. Qed.
Lemma key_has o n v : key n o = Some v -> has o n v.
Proof. destruct o; try discriminate. intro H. exists kvs. auto. Qed.
Lemma has_field o n v i k : has o n v -> field n i k o = Some v.
Proof. intros (kvs & -> & H). exact H. Qed.
Lemma lacks_key o n : lacks o n -> key n o = None.
Proof. intro H. destruct (key n o) as [v|] eqn:E; [|reflexivity]. elim (H v). now apply key_has. Qed.
Lemma status_fits c : 100 <= c <= 999 -> dec_status (JNum c) = Some c.
Proof. intro H. unfold dec_status. replace ((100 <=? c) && (c <=? 999)) with true by lia. reflexivity. Qed.

(** ** Errors *)
Lemma dec_failure_ok o x : failure_object o x -> dec_failure o = Some x.
Proof.
  intros (H1 & H2 & H3). unfold dec_failure. rewrite (has_field _ _ _ 0%nat 2%nat H1), (has_field _ _ _ 1%nat 2%nat H2). cbn [obind dec_usize dec_string].
  apply N.ltb_lt in H3. rewrite H3. now destruct x.
Qed.
Lemma dec_failures l : forall fs, Forall2 failure_object l fs -> dec_vec dec_failure (JArr l) = Some fs.
Proof.
  intros fs F. cbn [dec_vec]. induction F as [|o x l fs H F IH]; [reflexivity|]. cbn [dec_all].
  rewrite (dec_failure_ok o x H). cbn [obind]. now rewrite IH.
Qed.
Lemma dec_error_plain o c m : error_object o c m -> lacks o "failures" -> dec_error o = Some (ErrorMessage c m).
Proof.
  intros (H1 & H2 & H3) L. unfold dec_error. rewrite (has_key _ _ _ H1), (has_key _ _ _ H2), (lacks_key _ _ L). cbn [obind dec_string].
  rewrite status_fits by assumption. reflexivity.
Qed.
Lemma dec_error_indexed o c m l fs : error_object o c m -> has o "failures" (JArr l) -> Forall2 failure_object l fs ->
  dec_error o = Some (IndexedError c m fs).
Proof.
  intros (H1 & H2 & H3) L F. unfold dec_error. rewrite (has_key _ _ _ H1), (has_key _ _ _ H2), (has_key _ _ _ L). cbn [obind dec_string].
  rewrite status_fits by assumption. cbn [obind]. now rewrite (dec_failures l fs F).
Qed.
Lemma no_data {T} (dec : json -> option T) o : lacks o "data" -> dec_value dec o = None.
Proof.
  intro L. apply lacks_key in L. destruct o; try reflexivity. cbn [key] in L. cbn [dec_value]. now rewrite L.
Qed.
(** an error object of the API becomes that error, with its code, its message and its failures; whatever the status says *)
Theorem C87_get_error : forall {T} (dec : json -> option T) (s : N) (o : json) (c : N) (m : string),
  error_object o c m -> lacks o "data" -> lacks o "failures" -> read_data dec (mkResponse s (Some o)) = Bad (ErrApi (ErrorMessage c m)).
Proof.
  intros T dec s o c m E D F. unfold read_data, read_result. cbn [rs_body]. rewrite no_data by assumption. now rewrite (dec_error_plain o c m).
Qed.
Theorem C87_get_failures : forall {T} (dec : json -> option T) (s : N) (o : json) (c : N) (m : string) (l : list json) (fs : list (N * string)),
  error_object o c m -> lacks o "data" -> has o "failures" (JArr l) -> Forall2 failure_object l fs ->
  read_data dec (mkResponse s (Some o)) = Bad (ErrApi (IndexedError c m fs)).
Proof.
  intros T dec s o c m l fs E D L F. unfold read_data, read_result. cbn [rs_body]. rewrite no_data by assumption.
  now rewrite (dec_error_indexed o c m l fs).
Qed.
(** a posted object is reported as taken exactly if the status is 200 or 202 *)
Theorem C87_post_accepted : forall (r : Response), api_error_or_ok r = Good tt <-> accepted_status (rs_status r).
Proof.
  intro r. unfold api_error_or_ok, accepted_status.
  destruct (N.eqb_spec (rs_status r) 200) as [->|H]; [cbn; tauto|]. destruct (N.eqb_spec (rs_status r) 202) as [->|H']; [cbn; tauto|]. cbn [orb].
  split; [|tauto]. destruct (obind _ _); discriminate.
Qed.
Theorem C87_post_error : forall (s : N) (o : json) (c : N) (m : string), ~ accepted_status s ->
  error_object o c m -> lacks o "failures" -> api_error_or_ok (mkResponse s (Some o)) = Bad (ErrApi (ErrorMessage c m)).
Proof.
  intros s o c m S E F. unfold api_error_or_ok. cbn [rs_status rs_body obind]. unfold accepted_status in S.
  replace ((s =? 200) || (s =? 202)) with false by lia. now rewrite (dec_error_plain o c m).
Qed.
Theorem C87_post_failures : forall (s : N) (o : json) (c : N) (m : string) (l : list json) (fs : list (N * string)), ~ accepted_status s ->
  error_object o c m -> has o "failures" (JArr l) -> Forall2 failure_object l fs ->
  api_error_or_ok (mkResponse s (Some o)) = Bad (ErrApi (IndexedError c m fs)).
Proof.
  intros s o c m l fs S E L F. unfold api_error_or_ok. cbn [rs_status rs_body obind]. unfold accepted_status in S.
  replace ((s =? 200) || (s =? 202)) with false by lia. now rewrite (dec_error_indexed o c m l fs).
Qed.
(** errors survive being written and read *)
Theorem C87_error_roundtrip : forall (e : ApiError),
  match e with
  | ErrorMessage c m => 100 <= c <= 999
  | IndexedError c m fs => 100 <= c <= 999 /\ Forall (fun x => fst x < 2 ^ 64) fs
  end -> dec_error (enc_error e) = Some e.
Proof.
  intros [c m fs|c m] H.
  - destruct H as [H F]. apply (dec_error_indexed _ c m (map (fun p => JObj [("index"%string, JNum (fst p)); ("message"%string, JStr (snd p))]) fs)).
    + split; [eexists; split; reflexivity|]. split; [eexists; split; reflexivity|exact H].
    + eexists. split; reflexivity.
    + clear H. induction F as [|x l Hx F IH]; [constructor|]. cbn [map]. constructor; [|exact IH].
      split; [eexists; split; reflexivity|]. split; [eexists; split; reflexivity|exact Hx].
  - apply dec_error_plain.
    + split; [eexists; split; reflexivity|]. split; [eexists; split; reflexivity|exact H].
    + intros v (kvs & E & L). inversion E; subst. discriminate L.
Qed.

(** ** Values *)
(** the value returned is the decoded [data] of the response *)
Theorem C87_get_value : forall {T} (dec : json -> option T) (r : Response) (x : T),
  read_data dec r = Good x <-> exists o d, rs_body r = Some o /\ has o "data" d /\ dec d = Some x.
Proof.
  intros T dec r x. unfold read_data, read_result. split.
  - destruct (rs_body r) as [o|]; [|discriminate]. intro H. exists o. destruct o as [| | | | |kvs]; try (cbn [dec_value] in H; destruct (dec_error _); discriminate H).
    destruct (dec_value dec (JObj kvs)) as [[y meta]|] eqn:E; [|destruct (dec_error _); discriminate H]. inversion H; subst. cbn [fst].
    cbn [dec_value] in E. destruct (lookup "data" kvs) as [d|] eqn:L; [|discriminate E]. cbn [obind] in E. destruct (dec d) as [z|] eqn:D; [|discriminate E].
    inversion E; subst. exists d. split; [reflexivity|]. split; [exists kvs; auto|exact D].
  - intros (o & d & -> & (kvs & -> & L) & D). cbn [dec_value]. rewrite L. cbn [obind]. rewrite D. reflexivity.
Qed.
(** so the status has no say: a response with the status of a failure is a success if it has [data] of the right type *)
Theorem C87_status_ignored_refuted : forall {T} (dec : json -> option T) (s : N) (d : json) (x : T), dec d = Some x ->
  read_data dec (mkResponse s (Some (JObj [("data"%string, d)]))) = Good x.
Proof. intros T dec s d x D. apply C87_get_value. exists (JObj [("data"%string, d)]), d. split; [reflexivity|]. split; [|exact D]. eexists. split; reflexivity. Qed.
(** a versioned object is returned only with the name of a known fork *)
Definition fork_name (f : Fork) : string :=
  match f with Phase0 => "phase0" | Altair => "altair" | Bellatrix => "bellatrix" | Capella => "capella" | Deneb => "deneb" | Electra => "electra" end.
Lemma fork_of_name_iff n f : fork_of_name n = Some f <-> n = fork_name f.
Proof.
  split; [|intros ->; now destruct f]. unfold fork_of_name.
  repeat match goal with |- context [String.eqb n ?s] => destruct (String.eqb_spec n s) as [->|]; [intro E; inversion E; reflexivity|] end. discriminate.
Qed.
Theorem C87_versioned : forall {T} (dec : json -> option T) (r : Response) (x : T),
  read_versioned dec r = Good x <-> exists o d f, rs_body r = Some o /\ has o "version" (JStr (fork_name f)) /\ has o "data" d /\ dec d = Some x.
Proof.
  intros T dec r x. unfold read_versioned, read_result. split.
  - destruct (rs_body r) as [o|]; [|discriminate]. intro H. exists o. destruct o as [| | | | |kvs]; try (cbn [dec_versioned] in H; destruct (dec_error _); discriminate H).
    destruct (dec_versioned dec (JObj kvs)) as [[y meta]|] eqn:E; [|destruct (dec_error _); discriminate H]. inversion H; subst. cbn [snd].
    cbn [dec_versioned] in E. destruct (lookup "version" kvs) as [w|] eqn:V; [|discriminate E]. cbn [obind] in E. destruct w; try discriminate E. cbn [dec_string obind] in E.
    destruct (fork_of_name t) as [f|] eqn:F; [|discriminate E]. cbn [obind] in E. apply fork_of_name_iff in F. subst t.
    destruct (lookup "data" kvs) as [d|] eqn:L; [|discriminate E]. cbn [obind] in E. destruct (dec d) as [z|] eqn:D; [|discriminate E].
    inversion E; subst. exists d, y. split; [reflexivity|]. split; [exists kvs; auto|]. split; [exists kvs; auto|exact D].
  - intros (o & d & f & -> & (kvs & -> & V) & (kvs' & E & L) & D). inversion E; subst kvs'. cbn [dec_versioned]. rewrite V. cbn [obind dec_string].
    rewrite (proj2 (fork_of_name_iff _ f) eq_refl). cbn [obind]. rewrite L. cbn [obind]. rewrite D. reflexivity.
Qed.
(** duties: the dependent root of the response with the duties *)
Lemma lookup_other n kvs : n <> "data"%string -> lookup n (filter (fun p => negb (String.eqb (fst p) "data")) kvs) = lookup n kvs.
Proof.
  intro H. induction kvs as [|[k v] r IH]; [reflexivity|]. cbn [filter fst]. destruct (String.eqb_spec k "data") as [->|E]; cbn [negb].
  - rewrite IH. cbn [lookup]. destruct (String.eqb_spec "data" n); [congruence|]. destruct (String.eqb_spec n "data"); [congruence|reflexivity].
  - cbn [lookup]. rewrite IH. reflexivity.
Qed.
Lemma duties_value {T} root (dec : json -> option T) kvs (t : bytes) (x : T) :
  with_dependent_root root (match dec_value dec (JObj kvs) with Some y => Good y | None => Bad ErrHttp end) = Good (t, x) <->
  exists d e, lookup "data" kvs = Some d /\ dec d = Some x /\ lookup "dependent_root" kvs = Some e /\ root e = Some t.
Proof.
  cbn [dec_value]. split.
  - destruct (lookup "data" kvs) as [d|] eqn:L; [|discriminate]. cbn [obind]. destruct (dec d) as [z|] eqn:D; [|discriminate]. cbn [obind with_dependent_root].
    rewrite lookup_other by discriminate. destruct (lookup "dependent_root" kvs) as [e|]; [|discriminate]. destruct (root e) as [t'|] eqn:R; [|discriminate].
    intro H. inversion H; subst. exists d, e. auto.
  - intros (d & e & L & D & M & R). rewrite L. cbn [obind]. rewrite D. cbn [obind with_dependent_root]. rewrite lookup_other by discriminate. now rewrite M, R.
Qed.
Theorem C87_attester_duties : forall {T} (root : json -> option bytes) (dec : json -> option T) (r : Response) (t : bytes) (x : T),
  read_attester_duties root dec r = Good (t, x) <->
  accepted_status (rs_status r) /\
  exists o d e, rs_body r = Some o /\ has o "data" d /\ dec d = Some x /\ has o "dependent_root" e /\ root e = Some t.
Proof.
  intros T root dec r t x. unfold read_attester_duties, api_error_or_value, accepted_status.
  destruct ((rs_status r =? 200) || (rs_status r =? 202)) eqn:S.
  - assert (A : rs_status r = 200 \/ rs_status r = 202) by lia. destruct (rs_body r) as [o|]; cbn [obind].
    + destruct o as [| | | | |kvs]; try (split; [discriminate|intros (_ & o & d & e & E & (k & -> & _) & _); discriminate E]).
      rewrite duties_value. split.
      * intros (d & e & L & D & M & R). split; [exact A|]. exists (JObj kvs), d, e. repeat split; try assumption; eexists; eauto.
      * intros (_ & o & d & e & E & (k & -> & L) & D & (k' & E' & M) & R). inversion E; inversion E'; subst. exists d, e. auto.
    + split; [discriminate|intros (_ & o & d & e & E & _); discriminate E].
  - split; [destruct (obind _ _); discriminate|intros (A & _); lia].
Qed.
(** the duties of proposers are read the same way, whatever the status *)
Theorem C87_proposer_duties : forall {T} (root : json -> option bytes) (dec : json -> option T) (r : Response) (t : bytes) (x : T),
  read_proposer_duties root dec r = Good (t, x) <->
  exists o d e, rs_body r = Some o /\ has o "data" d /\ dec d = Some x /\ has o "dependent_root" e /\ root e = Some t.
Proof.
  intros T root dec r t x. unfold read_proposer_duties, read_result. destruct (rs_body r) as [o|]; [|split; [discriminate|intros (o & d & e & E & _); discriminate E]].
  assert (W : (exists o0 d e, Some o = Some o0 /\ has o0 "data" d /\ dec d = Some x /\ has o0 "dependent_root" e /\ root e = Some t)
     <-> exists kvs d e, o = JObj kvs /\ lookup "data" kvs = Some d /\ dec d = Some x /\ lookup "dependent_root" kvs = Some e /\ root e = Some t).
  { split.
    - intros (o0 & d & e & E & (k & -> & L) & D & (k' & E' & M) & R). inversion E; inversion E'; subst. exists k', d, e. auto.
    - intros (k & d & e & -> & L & D & M & R). exists (JObj k), d, e. repeat split; try assumption; eexists; eauto. }
  rewrite W. clear W. destruct o as [| | | | |kvs];
    try (split; [cbn [dec_value]; destruct (dec_error _); discriminate|intros (k & d & e & E & _); discriminate E]).
  pose proof (duties_value root dec kvs t x) as V. destruct (dec_value dec (JObj kvs)) as [y|] eqn:Y.
  - rewrite V. split; [intros (d & e & H); exists kvs, d, e; tauto|intros (k & d & e & E & H); inversion E; subst; exists d, e; tauto].
  - split; [destruct (dec_error _); discriminate|]. intros (k & d & e & E & H). inversion E; subst. exfalso.
    assert (F : with_dependent_root root (Bad ErrHttp : outcome (T * list (string * json))) = Good (t, x)) by (apply V; exists d, e; tauto). discriminate F.
Qed.
(** duties without a dependent root are an error of their own *)
Theorem C87_missing_root : forall {T} (root : json -> option bytes) (dec : json -> option T) (s : N) (o d : json) (x : T),
  has o "data" d -> dec d = Some x -> lacks o "dependent_root" ->
  read_proposer_duties root dec (mkResponse s (Some o)) = Bad ErrMissing
  /\ (accepted_status s -> read_attester_duties root dec (mkResponse s (Some o)) = Bad ErrMissing).
Proof.
  intros T root dec s o d x (k & -> & L) D M.
  assert (V : dec_value dec (JObj k) = Some (x, filter (fun p => negb (String.eqb (fst p) "data")) k)) by (cbn [dec_value]; rewrite L; cbn [obind]; rewrite D; reflexivity).
  assert (N : lookup "dependent_root" (filter (fun p => negb (String.eqb (fst p) "data")) k) = None).
  { rewrite lookup_other by discriminate. destruct (lookup "dependent_root" k) as [e|] eqn:Ee; [exfalso; apply (M e); exists k; auto|reflexivity]. }
  split.
  - unfold read_proposer_duties, read_result. cbn [rs_body]. rewrite V. cbn [with_dependent_root]. rewrite N. reflexivity.
  - intros A. unfold read_attester_duties, api_error_or_value. cbn [rs_body rs_status]. unfold accepted_status in A.
    replace ((s =? 200) || (s =? 202)) with true by lia. cbn [obind]. rewrite V. cbn [with_dependent_root]. rewrite N. reflexivity.
Qed.
(** one header summary: the root, whether it is canonical, and the header, each from its own field *)
Theorem C87_header : forall {H} (header : json -> option H) (s : N) (o d : json) (t : bytes) (c : bool) (h : H), has o "data" d -> is_object d ->
  (read_header header (mkResponse s (Some o)) = Good (t, c, h) <->
   exists jt jh, has d "root" jt /\ dec_bytes32 jt = Some t /\ has d "canonical" (JBool c) /\ has d "header" jh /\ header jh = Some h).
Proof.
  intros H header s o d t c h D [kv ->]. unfold read_header. rewrite C87_get_value. cbn [rs_body]. split.
  - intros (o' & d' & E & D' & V). inversion E; subst o'. destruct D as (k & -> & D), D' as (k' & E2 & D'). inversion E2; subst k'. rewrite D in D'. inversion D'; subst d'.
    unfold dec_header_summary in V. cbn [field] in V.
    destruct (lookup "root" kv) as [jt|] eqn:L1; [|discriminate V]. cbn [obind] in V. destruct (dec_bytes32 jt) as [t'|] eqn:B1; [|discriminate V]. cbn [obind] in V.
    destruct (lookup "canonical" kv) as [jc|] eqn:L2; [|discriminate V]. cbn [obind] in V. destruct jc; try discriminate V. cbn [dec_bool obind] in V.
    destruct (lookup "header" kv) as [jh|] eqn:L3; [|discriminate V]. cbn [obind] in V. destruct (header jh) as [h'|] eqn:B3; [|discriminate V].
    inversion V; subst. exists jt, jh. repeat split; try assumption; eexists; eauto.
  - intros (jt & jh & (k1 & E1 & L1) & B1 & (k2 & E2 & L2) & (k3 & E3 & L3) & B3). inversion E1; inversion E2; inversion E3; subst. exists o, (JObj k3).
    split; [reflexivity|]. split; [exact D|]. unfold dec_header_summary. cbn [field]. rewrite L1. cbn [obind]. rewrite B1. cbn [obind]. rewrite L2. cbn [obind dec_bool]. rewrite L3. cbn [obind]. rewrite B3. reflexivity.
Qed.
(** the health of the node, by status *)
Theorem C87_health : forall (s : N),
  (read_health s = Ready <-> s = 200) /\ (read_health s = Syncing <-> s = 206) /\ (read_health s = NotInitialized <-> s = 503).
Proof.
  intro s. unfold read_health. destruct (N.eqb_spec s 200) as [->|]; [repeat split; congruence || lia|].
  destruct (N.eqb_spec s 206) as [->|]; [repeat split; congruence || lia|]. destruct (N.eqb_spec s 503) as [->|]; repeat split; congruence || lia.
Qed.

(** ** Responses of the API that the client cannot read *)
(** the headers endpoint answers with a list of summaries *)
Theorem C87_headers_refuted : forall {H} (header : json -> option H) (s : N) (o : json) (l : list json), has o "data" (JArr l) -> Forall is_object l ->
  forall x, read_header header (mkResponse s (Some o)) <> Good x.
Proof.
  intros H header s o l D F x E. apply C87_get_value in E as (o' & d & E1 & D' & E). inversion E1; subst o'. destruct D as (k & -> & D), D' as (k' & E2 & D').
  inversion E2; subst k'. rewrite D in D'. inversion D'; subst d. unfold dec_header_summary, field in E.
  destruct l as [|a l]; [discriminate E|]. inversion F as [|? ? [kv ->] _]; subst. destruct (Nat.eqb (List.length (JObj kv :: l)) 3); discriminate E.
Qed.
(** the randao endpoint answers with an object *)
Theorem C87_randao_refuted : forall (s : N) (o d : json), has o "data" d -> is_object d -> forall x, read_randao (mkResponse s (Some o)) <> Good x.
Proof.
  intros s o d D [kv ->] x E. apply C87_get_value in E as (o' & d & E1 & D' & E). inversion E1; subst o'. destruct D as (k & -> & D), D' as (k' & E2 & D').
  inversion E2; subst k'. rewrite D in D'. inversion D'; subst d. discriminate E.
Qed.
(** the endpoint of the light client updates answers with a list *)
Theorem C87_updates_refuted : forall {U} (update : json -> option U) (s : N) (l : list json) x, read_updates update (mkResponse s (Some (JArr l))) <> Good x.
Proof. intros U update s l x E. apply C87_get_value in E as (o & d & E1 & (k & -> & D) & _). discriminate E1. Qed.

Example C87_example :
  read_data dec_bool (mkResponse 200 (Some (JObj [("execution_optimistic"%string, JBool false); ("data"%string, JBool true)]))) = Good true /\
  read_data dec_bool (mkResponse 404 (Some (JObj [("code"%string, JNum 404); ("message"%string, JStr "State not found")])))
    = Bad (ErrApi (ErrorMessage 404 "State not found")) /\
  api_error_or_ok (mkResponse 400 (Some (JObj [("code"%string, JNum 400); ("message"%string, JStr "some failures");
    ("failures"%string, JArr [JObj [("index"%string, JNum 3); ("message"%string, JStr "invalid signature")]])])))
    = Bad (ErrApi (IndexedError 400 "some failures" [(3, "invalid signature"%string)])) /\
  error_object (JObj [("code"%string, JNum 404); ("message"%string, JStr "State not found")]) 404 "State not found" /\
  read_attester_duties dec_bytes32 dec_bool (mkResponse 200 (Some (JObj [("data"%string, JBool true)]))) = Bad ErrMissing /\
  read_randao (mkResponse 200 (Some (JObj [("data"%string, JObj [("randao"%string, JStr "0x00")])]))) = Bad ErrHttp.
Proof. repeat split; try reflexivity; try lia; eexists; split; reflexivity. Qed.

Print Assumptions C87_get_error.
Print Assumptions C87_get_failures.
Print Assumptions C87_post_accepted.
Print Assumptions C87_post_error.
Print Assumptions C87_post_failures.
Print Assumptions C87_error_roundtrip.
Print Assumptions C87_get_value.
Print Assumptions C87_status_ignored_refuted.
Print Assumptions C87_versioned.
Print Assumptions C87_attester_duties.
Print Assumptions C87_proposer_duties.
Print Assumptions C87_missing_root.
Print Assumptions C87_header.
Print Assumptions C87_health.
Print Assumptions C87_headers_refuted.
Print Assumptions C87_randao_refuted.
Print Assumptions C87_updates_refuted.
