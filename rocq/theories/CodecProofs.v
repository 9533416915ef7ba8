(** * Proofs about the JSON codec *)
From Coq Require Import String Permutation.
From Verif Require Import Base BaseLemmas StLemmas Text SpecText PropsText JsonCodec SpecCodec.

(** ** Induction over types *)
Section Ind.
Variable P : Ty -> Prop.
Hypothesis Hnum : forall b, P (TNum b).
Hypothesis Htext : forall b, P (TText b).
Hypothesis Hbool : P TBool.
Hypothesis Hhex : forall l, P (THex l).
Hypothesis Hbits : forall l, P (TBits l).
Hypothesis Hts : forall l b, P (TTextSeq l b).
Hypothesis Hseq : forall l e, P e -> P (TSeq l e).
Hypothesis Hrec : forall fs, Forall (fun p => P (snd p)) fs -> P (TRec fs).
Fixpoint Ty_ind' (t : Ty) : P t :=
  match t with
  | TNum b => Hnum b
  | TText b => Htext b
  | TBool => Hbool
  | THex l => Hhex l
  | TBits l => Hbits l
  | TTextSeq l b => Hts l b
  | TSeq l e => Hseq l e (Ty_ind' e)
  | TRec fs => Hrec fs ((fix go (fs : list (string * Ty)) : Forall (fun p => P (snd p)) fs :=
                          match fs with [] => Forall_nil _ | p :: r => Forall_cons p (Ty_ind' (snd p)) (go r) end) fs)
  end.
End Ind.

(** ** Side conditions, checked on the table by computation *)
Fixpoint nodupb (l : list string) : bool :=
  match l with [] => true | x :: r => negb (existsb (String.eqb x) r) && nodupb r end.
Lemma nodupb_ok l : nodupb l = true -> NoDup l.
Proof.
  induction l as [|x r IH]; cbn [nodupb]; intros H; [constructor|]. apply andb_true_iff in H as [H1 H2]. constructor; [|auto]. intros Hin.
  apply negb_true_iff in H1. assert (existsb (String.eqb x) r = true); [|congruence]. apply existsb_exists. exists x. split; [exact Hin|apply String.eqb_refl].
Qed.
(** keys are distinct and the bounds fit the text width *)
Fixpoint sound_ty (t : Ty) : bool :=
  match t with
  | TText b | TTextSeq _ b => b <=? 10 ^ 80
  | TSeq _ e => sound_ty e
  | TRec fs => nodupb (map fst fs) && forallb (fun p => sound_ty (snd p)) fs
  | _ => true
  end.
(** every integer has its attribute *)
Fixpoint attributed (t : Ty) : bool :=
  match t with
  | TNum _ => false
  | TSeq _ e => attributed e
  | TRec fs => forallb (fun p => attributed (snd p)) fs
  | _ => true
  end.
(** some mandatory integer field lacks its attribute *)
Fixpoint lacking (t : Ty) : bool :=
  match t with
  | TNum _ => true
  | TRec fs => existsb (fun p => lacking (snd p)) fs
  | _ => false
  end.

(** ** Decimal numbers *)
Lemma dec_digits_iff t : forall acc n, dec_digits t acc = Some n <-> digits t /\ dval t acc = n.
Proof.
  induction t as [|c t IH]; intros acc n; cbn [dec_digits].
  - cbn. split; [intros [= <-]; split; [constructor|reflexivity]|intros (_ & ->); reflexivity].
  - destruct ((48 <=? c) && (c <=? 57)) eqn:Hc.
    + change (dval (c :: t) acc) with (dval t (10 * acc + (c - 48))). rewrite IH.
      split; intros (Hd & Hv); (split; [|exact Hv]); [constructor; [lia|exact Hd]|inversion Hd; assumption].
    + split; [discriminate|]. intros (Hd & _). inversion Hd; subst. lia.
Qed.
Lemma num_parse_iff bound t n : num_parse bound t = Some n <-> n < bound /\ exists u, dec_denotes u n /\ (t = u \/ t = 43 :: u).
Proof.
  assert (Hp : forall u, u <> [] -> (dec_digits u 0 = Some n <-> dec_denotes u n)).
  { intros u Hu. rewrite dec_digits_iff, dec_denotes_iff. tauto. }
  assert (Hno : forall u m, ~ dec_denotes (43 :: u) m). { intros u m H. apply dec_denotes_iff in H as (_ & Hd & _). inversion Hd; subst. lia. }
  assert (Hb : forall o, match o with Some n0 => if n0 <? bound then Some n0 else None | None => None end = Some n <-> o = Some n /\ n < bound).
  { intros [m|]; [|split; [discriminate|intros [? _]; discriminate]]. destruct (N.ltb_spec m bound).
    - split; [intros [= <-]; auto|intros [[= <-] _]; reflexivity].
    - split; [discriminate|]. intros [[= <-] ?]. lia. }
  unfold num_parse. rewrite Hb. destruct t as [|c t].
  - split; [intros [? _]; discriminate|]. intros (_ & u & Hu & [<-|Hx]); [apply dec_denotes_iff in Hu as [Hu _]; contradiction|discriminate].
  - destruct (N.eqb_spec c 43) as [->|Hc].
    + destruct t as [|d t].
      * split; [intros [? _]; discriminate|]. intros (_ & u & Hu & [<-|[= <-]]); [destruct (Hno _ _ Hu)|apply dec_denotes_iff in Hu as [Hu _]; contradiction].
      * rewrite Hp by discriminate. split.
        -- intros [Hd Hn]. split; [exact Hn|]. exists (d :: t). auto.
        -- intros (Hn & u & Hu & [<-|[= <-]]); [destruct (Hno _ _ Hu)|auto].
    + rewrite Hp by discriminate. split.
      * intros [Hd Hn]. split; [exact Hn|]. exists (c :: t). auto.
      * intros (Hn & u & Hu & [<-|[= -> _]]); [auto|congruence].
Qed.
Lemma num_text_denotes n : n < 10 ^ 80 -> dec_denotes (num_text n) n.
Proof. intros H. apply (dec_text_denotes 79). exact H. Qed.
Lemma num_roundtrip b n : b <= 10 ^ 80 -> n < b -> num_parse b (num_text n) = Some n.
Proof. intros Hb H. apply num_parse_iff. split; [exact H|]. exists (num_text n). split; [apply num_text_denotes; lia|auto]. Qed.
Lemma num_parse_lt b t n : num_parse b t = Some n -> n < b.
Proof. intros H. apply num_parse_iff in H. apply H. Qed.

(** ** Hexadecimal text *)
Lemma denotes_bytes d b : hex_denotes d b -> forallb (fun x => x <? 256) b = true.
Proof.
  assert (Hd : forall c v, hex_digit_is c v -> v < 16).
  { intros c v Hv. assert ((N.to_nat v < 16)%nat); [|lia]. destruct Hv as [Hv|Hv]; [change 16%nat with (length (codes "0123456789abcdef"))|change 16%nat with (length (codes "0123456789ABCDEF"))];
      apply nth_error_Some; rewrite Hv; discriminate. }
  intros H. induction H as [|h l x y t b Hx Hy _ IH]; [reflexivity|]. cbn [forallb]. apply andb_true_iff. split; [|exact IH].
  specialize (Hd _ _ Hx) as H1. specialize (Hd _ _ Hy) as H2. lia.
Qed.
Lemma forallb_bytes b : forallb (fun x => x <? 256) b = true -> all_bytes b.
Proof. intros H. apply Forall_forall. rewrite forallb_forall in H. intros x Hx. specialize (H x Hx). lia. Qed.
Lemma hex_read ok b u : (exists d, u = codes "0x" ++ d /\ hex_denotes d b) -> ok b = true -> read_hex ok (VText u) = Some (XBytes b).
Proof.
  intros (d & -> & Hd) Hok. unfold read_hex. assert (H : try_bytes_from_hex_str (codes "0x" ++ d) = Ok b).
  { apply C64_decode. exists d. split; [constructor|exact Hd]. }
  rewrite H, Hok. reflexivity.
Qed.
Lemma hex_written b : forallb (fun x => x <? 256) b = true -> exists d, to_hex b = codes "0x" ++ d /\ hex_denotes d b.
Proof. intros H. exists (hex_text b). split; [reflexivity|]. apply hex_text_denotes. apply forallb_bytes. exact H. Qed.
Lemma read_hex_sound ok j v : read_hex ok j = Some v -> exists b, v = XBytes b /\ ok b = true /\ forallb (fun x => x <? 256) b = true.
Proof.
  unfold read_hex. destruct j as [| | |t| |]; try discriminate. destruct (try_bytes_from_hex_str t) as [b| | |] eqn:Hb; try discriminate.
  unfold guard. destruct (ok b) eqn:Hok; [|discriminate]. intros [= <-]. exists b. split; [reflexivity|]. split; [exact Hok|].
  apply C64_decode in Hb as (u & _ & Hu). eapply denotes_bytes; eauto.
Qed.

(** ** Members of an object *)
Lemma entries_none k kvs : ~ In k (map fst kvs) -> entries k kvs = [].
Proof.
  induction kvs as [|[k' x] r IH]; cbn [entries map fst In]; [reflexivity|]. intros H. destruct (String.eqb_spec k' k) as [->|Hne]; [exfalso; apply H; auto|]. apply IH. tauto.
Qed.
Lemma entries_in k x kvs : NoDup (map fst kvs) -> In (k, x) kvs -> entries k kvs = [x].
Proof.
  induction kvs as [|[k' y] r IH]; cbn [entries map fst In]; [contradiction|]. intros Hd Hin. inversion Hd as [|? ? Hn Hd']; subst. destruct Hin as [[= -> ->]|Hin].
  - rewrite String.eqb_refl. rewrite entries_none by exact Hn. reflexivity.
  - destruct (String.eqb_spec k' k) as [->|Hne]; [|auto]. exfalso. apply Hn. apply in_map_iff. exists (k, x). auto.
Qed.
Lemma entries_app k a b : entries k (a ++ b) = entries k a ++ entries k b.
Proof. induction a as [|[k' x] r IH]; cbn [app entries]; [reflexivity|]. destruct (String.eqb k' k); [cbn [app]; f_equal|]; apply IH. Qed.
Lemma entries_perm k a b : Permutation a b -> Permutation (entries k a) (entries k b).
Proof.
  intros H. induction H as [|[k' x] l l' _ IH|[k' x] [k2 y] l|l l' l2 _ IH1 _ IH2]; cbn [entries]; [constructor| | |etransitivity; eauto].
  - destruct (String.eqb k' k); [constructor|]; exact IH.
  - destruct (String.eqb k' k), (String.eqb k2 k); try apply Permutation_refl. constructor.
Qed.

Lemma map_opt_all {A B} (g : A -> option B) l ys : Forall2 (fun x y => g x = Some y) l ys -> map_opt g l = Some ys.
Proof. intros H. induction H as [|x y l ys Hx _ IH]; cbn [map_opt]; [reflexivity|]. rewrite Hx, IH. reflexivity. Qed.
Lemma map_opt_inv {A B} (g : A -> option B) l : forall ys, map_opt g l = Some ys -> Forall2 (fun x y => g x = Some y) l ys.
Proof.
  induction l as [|x l IH]; intros ys; cbn [map_opt]; [intros [= <-]; constructor|]. destruct (g x) as [y|] eqn:Hx; [|discriminate].
  destruct (map_opt g l) as [zs|]; [|discriminate]. intros [= <-]. constructor; auto.
Qed.
Lemma Forall2_lenN' {A B} (R : A -> B -> Prop) l k : Forall2 R l k -> lenN l = lenN k.
Proof. intros H. unfold lenN. induction H; cbn [length]; [reflexivity|]. lia. Qed.

Section Codec.
Variable K : string -> N.
Variable bits_ok : Len -> bytes -> bool.
Notation typed := (typed K bits_ok).
Notation read := (read K bits_ok).
Notation api_text := (api_text K bits_ok).

(** the model's tests are the specification's conditions *)
Lemma len_ok_iff l n : len_ok K l n = true <-> permitted K l n.
Proof.
  destruct l as [z|z|]; cbn [len_ok permitted]; unfold size_of, elements; [apply N.eqb_eq|apply N.leb_le|tauto].
Qed.
Lemma typed_num_iff b v : typed_num b v = true <-> below b v.
Proof.
  unfold below. destruct v; cbn [typed_num]; (split; [intros H|intros (m & E & H)]); try discriminate.
  - exists n. split; [reflexivity|]. apply N.ltb_lt. exact H.
  - injection E as ->. apply N.ltb_lt. exact H.
Qed.
Lemma forallb_iff {A} (g : A -> bool) (P : A -> Prop) l : (forall x, g x = true <-> P x) -> forallb g l = true <-> Forall P l.
Proof.
  intros H. induction l as [|x l IH]; cbn [forallb]; [split; constructor|]. rewrite andb_true_iff, IH, H. split.
  - intros [H1 H2]. constructor; assumption.
  - intros H1. inversion H1. split; assumption.
Qed.
Lemma typed_iff : forall t v, typed t v = true <-> holds K bits_ok t v.
Proof.
  apply (Ty_ind' (fun t => forall v, typed t v = true <-> holds K bits_ok t v)).
  - intros b v. apply typed_num_iff.
  - intros b v. apply typed_num_iff.
  - intros v. destruct v; cbn [JsonCodec.typed holds]; (split; [intros H|intros H]); try discriminate; try contradiction; trivial.
  - intros l v. destruct v; cbn [JsonCodec.typed holds]; try (split; [discriminate|contradiction]).
    rewrite andb_true_iff, len_ok_iff, (forallb_iff _ (fun x => x < 256)); [tauto|]. intros x. apply N.ltb_lt.
  - intros l v. destruct v; cbn [JsonCodec.typed holds]; try (split; [discriminate|contradiction]).
    rewrite andb_true_iff, (forallb_iff _ (fun x => x < 256)); [tauto|]. intros x. apply N.ltb_lt.
  - intros l b v. destruct v; cbn [JsonCodec.typed holds]; try (split; [discriminate|contradiction]).
    rewrite andb_true_iff, len_ok_iff, (forallb_iff _ (below b)); [tauto|]. intros x. apply typed_num_iff.
  - intros l e IH v. destruct v; cbn [JsonCodec.typed holds]; try (split; [discriminate|contradiction]).
    rewrite andb_true_iff, len_ok_iff, (forallb_iff _ (holds K bits_ok e)); [tauto|exact IH].
  - intros fs IH v. destruct v as [| | |vs]; cbn [JsonCodec.typed holds]; try (split; [discriminate|contradiction]).
    revert vs. induction fs as [|[k t] fs IHf]; intros [|v vs]; try (split; [discriminate|contradiction]); [tauto|].
    inversion IH as [|? ? I1 I2]; subst. rewrite andb_true_iff, (IHf I2 vs), (I1 v). tauto.
Qed.

(** the loops over the fields of a record *)
Fixpoint typed_fields (fs : list (string * Ty)) (vs : list val) : bool :=
  match fs, vs with
  | [], [] => true
  | (_, t') :: fr, v' :: vr => typed t' v' && typed_fields fr vr
  | _, _ => false
  end.
Fixpoint write_fields (fs : list (string * Ty)) (vs : list val) : list (string * jv) :=
  match fs, vs with
  | (k, t') :: fr, v' :: vr => (k, write t' v') :: write_fields fr vr
  | _, _ => []
  end.
Fixpoint read_fields (bw : bool) (kvs : list (string * jv)) (fs : list (string * Ty)) : option (list val) :=
  match fs with
  | [] => Some []
  | (k, t') :: fr =>
      match entries k kvs with
      | [x] => match read bw t' x, read_fields bw kvs fr with Some v, Some vs => Some (v :: vs) | _, _ => None end
      | _ => None
      end
  end.
Fixpoint read_list (bw : bool) (fs : list (string * Ty)) (js : list jv) : option (list val) :=
  match fs, js with
  | [], [] => Some []
  | (_, t') :: fr, x :: jr => match read bw t' x, read_list bw fr jr with Some v, Some vs => Some (v :: vs) | _, _ => None end
  | _, _ => None
  end.
Fixpoint api_fields (kvs : list (string * jv)) (fs : list (string * Ty)) (vs : list val) : Prop :=
  match fs, vs with
  | [], [] => True
  | (k, t') :: fr, v' :: vr => (exists x, In (k, x) kvs /\ api_text t' v' x) /\ api_fields kvs fr vr
  | _, _ => False
  end.
Lemma typed_rec fs vs : typed (TRec fs) (XSeq vs) = typed_fields fs vs.
Proof. reflexivity. Qed.
Lemma write_rec fs vs : write (TRec fs) (XSeq vs) = VObj (write_fields fs vs).
Proof. reflexivity. Qed.
Lemma read_rec bw fs kvs : read bw (TRec fs) (VObj kvs) = option_map XSeq (read_fields bw kvs fs).
Proof. cbn. f_equal. induction fs as [|[k t] fs IH]; cbn; [reflexivity|]. destruct (entries k kvs) as [|x [|]]; try reflexivity. rewrite IH. reflexivity. Qed.
Lemma read_arr bw fs js : read bw (TRec fs) (VArr js) = option_map XSeq (read_list bw fs js).
Proof. cbn. f_equal. revert js. induction fs as [|[k t] fs IH]; intros [|x js]; cbn; try reflexivity. rewrite IH. reflexivity. Qed.
Lemma api_rec fs vs kvs : api_text (TRec fs) (XSeq vs) (VObj kvs) <-> NoDup (map fst kvs) /\ api_fields kvs fs vs.
Proof.
  cbn. assert (H : forall vs, (fix go (fs : list (string * Ty)) (vs : list val) : Prop :=
            match fs, vs with
            | [], [] => True
            | (k, t') :: fr, v' :: vr => (exists x, In (k, x) kvs /\ api_text t' v' x) /\ go fr vr
            | _, _ => False
            end) fs vs <-> api_fields kvs fs vs).
  { induction fs as [|[k t] fs IH]; intros [|v vs']; cbn; try tauto. rewrite IH. tauto. }
  rewrite H. tauto.
Qed.

(** ** Reading what the API prescribes *)
Lemma read_api : forall t, attributed t = true -> forall v j, api_text t v j -> read true t j = Some v.
Proof.
  apply (Ty_ind' (fun t => attributed t = true -> forall v j, api_text t v j -> read true t j = Some v)).
  - intros b H. discriminate H.
  - intros b _ v j H. destruct v, j; try destruct H. cbn [JsonCodec.read read_num]. replace (num_parse b t) with (Some n); [reflexivity|]. symmetry. apply num_parse_iff. split; [assumption|]. eauto.
  - intros _ v j H. destruct v, j; try destruct H. reflexivity.
  - intros l _ v j H. destruct v, j; try destruct H. cbn [JsonCodec.read]. apply hex_read; [|apply len_ok_iff]; assumption.
  - intros l _ v j H. destruct v, j; try destruct H. cbn [JsonCodec.read]. apply hex_read; assumption.
  - intros l b _ v j H. destruct v as [| | |vs], j as [| | | |js|]; try destruct H. cbn [JsonCodec.read].
    assert (Hm : map_opt (fun x => if true then read_num b x else None) js = Some vs).
    { apply map_opt_all. clear - H0. induction H0 as [|v j vs js Hv _ IH]; constructor; [|exact IH]. destruct v, j; try contradiction. destruct Hv as [Hn Hd].
      cbn [read_num]. replace (num_parse b t) with (Some n); [reflexivity|]. symmetry. apply num_parse_iff. eauto. }
    rewrite Hm. unfold guard. apply len_ok_iff in H. rewrite H. reflexivity.
  - intros l e IH Ha v j H. cbn [attributed] in Ha. destruct v as [| | |vs], j as [| | | |js|]; try destruct H. cbn [JsonCodec.read].
    assert (Hm : map_opt (read true e) js = Some vs).
    { apply map_opt_all. clear - H0 IH Ha. induction H0 as [|v j vs js Hv _ IHf]; constructor; [|exact IHf]. apply IH; assumption. }
    rewrite Hm. unfold guard. apply len_ok_iff in H. rewrite H. reflexivity.
  - intros fs IH Ha v j H. cbn [attributed] in Ha. destruct v as [| | |vs], j as [| | | | |kvs]; try destruct H; try contradiction.
    assert (H' : api_text (TRec fs) (XSeq vs) (VObj kvs)) by (cbn [SpecCodec.api_text]; split; assumption). clear H H0. apply api_rec in H' as [Hd H].
    rewrite read_rec. replace (read_fields true kvs fs) with (Some vs); [reflexivity|]. symmetry.
    revert vs H. induction fs as [|[k t] fs IHf]; intros [|v vs] H; cbn [api_fields] in H; try contradiction; [reflexivity|].
    destruct H as [(x & Hx & Hv) H]. inversion IH as [|? ? I1 I2]; subst. cbn [forallb snd] in *. apply andb_true_iff in Ha as [A1 A2].
    cbn [read_fields]. rewrite (entries_in k x kvs Hd Hx). rewrite (I1 A1 v x Hv), (IHf I2 A2 vs H). reflexivity.
Qed.
(** ** Writing what the API prescribes *)
Lemma write_keys fs : forall vs, typed_fields fs vs = true -> map fst (write_fields fs vs) = map fst fs.
Proof.
  induction fs as [|[k t] fs IH]; intros [|v vs] H; cbn [typed_fields] in H; try discriminate; [reflexivity|]. apply andb_true_iff in H as [_ H].
  cbn [write_fields map fst]. f_equal. apply IH. exact H.
Qed.
Lemma typed_num_inv b v : typed_num b v = true -> exists n, v = XNum n /\ n < b.
Proof. destruct v; cbn [typed_num]; try discriminate. intros H. exists n. split; [reflexivity|lia]. Qed.
Lemma write_api : forall t, attributed t = true -> sound_ty t = true -> forall v, typed t v = true -> api_text t v (write t v).
Proof.
  apply (Ty_ind' (fun t => attributed t = true -> sound_ty t = true -> forall v, typed t v = true -> api_text t v (write t v))).
  - intros b H. discriminate H.
  - intros b _ Hb v H. cbn [JsonCodec.typed] in H. apply typed_num_inv in H as (n & -> & Hn). cbn. cbn [sound_ty] in Hb. split; [exact Hn|]. apply num_text_denotes. lia.
  - intros _ _ v H. destruct v; try discriminate H. reflexivity.
  - intros l _ _ v H. destruct v as [| |b|]; try discriminate H. cbn [JsonCodec.typed] in H. apply andb_true_iff in H as [H1 H2]. cbn [write SpecCodec.api_text]. split; [apply len_ok_iff; exact H2|]. apply hex_written. exact H1.
  - intros l _ _ v H. destruct v as [| |b|]; try discriminate H. cbn [JsonCodec.typed] in H. apply andb_true_iff in H as [H1 H2]. cbn [write SpecCodec.api_text]. split; [exact H2|]. apply hex_written. exact H1.
  - intros l b _ Hb v H. destruct v as [| | |vs]; try discriminate H. cbn [JsonCodec.typed] in H. apply andb_true_iff in H as [H1 H2]. cbn [write SpecCodec.api_text]. split; [apply len_ok_iff; exact H1|].
    cbn [sound_ty] in Hb. clear H1. induction vs as [|v vs IH]; [constructor|]. cbn [forallb map] in *. apply andb_true_iff in H2 as [Hv H2]. constructor; [|auto].
    apply typed_num_inv in Hv as (n & -> & Hn). cbn [write_num]. split; [exact Hn|]. apply num_text_denotes. lia.
  - intros l e IH Ha Hs v H. cbn [attributed sound_ty] in *. destruct v as [| | |vs]; try discriminate H. cbn [JsonCodec.typed] in H. apply andb_true_iff in H as [H1 H2].
    cbn [write SpecCodec.api_text]. split; [apply len_ok_iff; exact H1|]. clear H1. induction vs as [|v vs IHv]; [constructor|]. cbn [forallb map] in *. apply andb_true_iff in H2 as [Hv H2]. constructor; auto.
  - intros fs IH Ha Hs v H. cbn [attributed sound_ty] in *. apply andb_true_iff in Hs as [Hk Hs]. destruct v as [| | |vs]; try discriminate H. rewrite typed_rec in H. rewrite write_rec.
    apply api_rec. split; [rewrite write_keys by exact H; apply nodupb_ok; exact Hk|].
    assert (G : forall kvs, incl (write_fields fs vs) kvs -> api_fields kvs fs vs).
    { clear Hk. revert vs H. induction fs as [|[k t] fs IHf]; intros [|v vs] H kvs Hi; cbn [typed_fields] in H; try discriminate; [exact I|].
      inversion IH as [|? ? I1 I2]; subst. cbn [forallb snd] in *. apply andb_true_iff in Ha as [A1 A2]. apply andb_true_iff in Hs as [S1 S2]. apply andb_true_iff in H as [T1 T2].
      cbn [api_fields]. split.
      - exists (write t v). split; [apply Hi; left; reflexivity|auto].
      - apply IHf; try assumption. intros x Hx. apply Hi. right. exact Hx. }
    apply G. apply incl_refl.
Qed.

(** ** Round trip *)
(** a list of numbers written with [seq_of_str] that is not empty, somewhere in the value *)
Fixpoint has_number_list (t : Ty) (v : val) {struct t} : bool :=
  match t, v with
  | TTextSeq _ _, XSeq (_ :: _) => true
  | TSeq _ e, XSeq vs => existsb (has_number_list e) vs
  | TRec fs, XSeq vs =>
      (fix go (fs : list (string * Ty)) (vs : list val) : bool :=
         match fs, vs with
         | (_, t') :: fr, v' :: vr => has_number_list t' v' || go fr vr
         | _, _ => false
         end) fs vs
  | _, _ => false
  end.
Fixpoint list_in_fields (fs : list (string * Ty)) (vs : list val) : bool :=
  match fs, vs with
  | (_, t') :: fr, v' :: vr => has_number_list t' v' || list_in_fields fr vr
  | _, _ => false
  end.
Lemma has_rec fs vs : has_number_list (TRec fs) (XSeq vs) = list_in_fields fs vs.
Proof. reflexivity. Qed.
Lemma roundtrip bw : forall t, sound_ty t = true -> forall v, typed t v = true ->
  read bw t (write t v) = if negb bw && has_number_list t v then None else Some v.
Proof.
  apply (Ty_ind' (fun t => sound_ty t = true -> forall v, typed t v = true -> read bw t (write t v) = if negb bw && has_number_list t v then None else Some v)).
  - intros b _ v H. cbn [JsonCodec.typed] in H. destruct v; try discriminate H. cbn [typed_num] in H. cbn. rewrite andb_false_r. rewrite H. reflexivity.
  - intros b Hb v H. cbn [JsonCodec.typed] in H. apply typed_num_inv in H as (n & -> & Hn). cbn [sound_ty] in Hb. cbn [write write_num JsonCodec.read read_num has_number_list]. rewrite andb_false_r.
    rewrite num_roundtrip by lia. reflexivity.
  - intros _ v H. destruct v; try discriminate H. cbn. rewrite andb_false_r. reflexivity.
  - intros l _ v H. destruct v as [| |b|]; try discriminate H. cbn [JsonCodec.typed] in H. apply andb_true_iff in H as [H1 H2]. cbn [write JsonCodec.read has_number_list]. rewrite andb_false_r.
    apply hex_read; [apply hex_written; exact H1|exact H2].
  - intros l _ v H. destruct v as [| |b|]; try discriminate H. cbn [JsonCodec.typed] in H. apply andb_true_iff in H as [H1 H2]. cbn [write JsonCodec.read has_number_list]. rewrite andb_false_r.
    apply hex_read; [apply hex_written; exact H1|exact H2].
  - intros l b Hb v H. destruct v as [| | |vs]; try discriminate H. cbn [JsonCodec.typed] in H. apply andb_true_iff in H as [H1 H2]. cbn [write JsonCodec.read has_number_list]. cbn [sound_ty] in Hb.
    destruct bw; cbn [negb andb].
    + assert (Hm : map_opt (fun x => if true then read_num b x else None) (map write_num vs) = Some vs).
      { apply map_opt_all. clear H1. induction vs as [|v vs IH]; cbn [map forallb] in *; [constructor|]. apply andb_true_iff in H2 as [Hv H2]. constructor; [|auto].
        apply typed_num_inv in Hv as (n & -> & Hn). cbn [write_num read_num]. rewrite num_roundtrip by lia. reflexivity. }
      rewrite Hm. unfold guard. rewrite H1. reflexivity.
    + destruct vs as [|v vs]; cbn [map map_opt].
      * unfold guard. rewrite H1. reflexivity.
      * reflexivity.
  - intros l e IH Hs v H. cbn [sound_ty] in Hs. destruct v as [| | |vs]; try discriminate H. cbn [JsonCodec.typed] in H. apply andb_true_iff in H as [H1 H2]. cbn [write JsonCodec.read has_number_list].
    assert (Hm : map_opt (read bw e) (map (write e) vs) = if negb bw && existsb (has_number_list e) vs then None else Some vs).
    { clear H1. induction vs as [|v vs IHv]; cbn [map map_opt existsb forallb] in *; [rewrite andb_false_r; reflexivity|]. apply andb_true_iff in H2 as [Hv H2].
      rewrite (IH Hs v Hv), (IHv H2). destruct (negb bw), (has_number_list e v), (existsb (has_number_list e) vs); reflexivity. }
    rewrite Hm. destruct (negb bw && existsb (has_number_list e) vs); [reflexivity|]. unfold guard. rewrite H1. reflexivity.
  - intros fs IH Hs v H. cbn [sound_ty] in Hs. apply andb_true_iff in Hs as [Hk Hs]. destruct v as [| | |vs]; try discriminate H. rewrite typed_rec in H. rewrite write_rec, read_rec, has_rec.
    assert (Hnd : NoDup (map fst (write_fields fs vs))) by (rewrite write_keys by exact H; apply nodupb_ok; exact Hk).
    assert (G : forall kvs, NoDup (map fst kvs) -> incl (write_fields fs vs) kvs -> read_fields bw kvs fs = if negb bw && list_in_fields fs vs then None else Some vs).
    { clear Hk Hnd. revert vs H. induction fs as [|[k t] fs IHf]; intros [|v vs] H kvs Hd Hi; cbn [typed_fields] in H; try discriminate; [cbn; rewrite andb_false_r; reflexivity|].
      inversion IH as [|? ? I1 I2]; subst. cbn [forallb snd] in *. apply andb_true_iff in Hs as [S1 S2]. apply andb_true_iff in H as [T1 T2].
      cbn [read_fields list_in_fields]. rewrite (entries_in k (write t v) kvs Hd) by (apply Hi; left; reflexivity). rewrite (I1 S1 v T1), (IHf I2 S2 vs T2 kvs Hd) by (intros x Hx; apply Hi; right; exact Hx).
      destruct (negb bw), (has_number_list t v), (list_in_fields fs vs); reflexivity. }
    rewrite (G _ Hnd (incl_refl _)). destruct (negb bw && list_in_fields fs vs); reflexivity.
Qed.

(** ** What is read is well typed *)
Lemma read_num_sound b j v : read_num b j = Some v -> typed_num b v = true.
Proof.
  unfold read_num. destruct j; try discriminate. destruct (num_parse b t) as [n|] eqn:Hn; [|discriminate]. intros [= <-]. apply num_parse_lt in Hn. cbn [typed_num]. lia.
Qed.
Lemma read_typed bw : forall t j v, read bw t j = Some v -> typed t v = true.
Proof.
  apply (Ty_ind' (fun t => forall j v, read bw t j = Some v -> typed t v = true)).
  - intros b j v. cbn [JsonCodec.read]. destruct j; try discriminate. unfold guard. destruct (n <? b) eqn:Hn; [|discriminate]. intros [= <-]. exact Hn.
  - intros b j v H. cbn [JsonCodec.read] in H. cbn [JsonCodec.typed]. eapply read_num_sound; eauto.
  - intros j v. cbn [JsonCodec.read]. destruct j; try discriminate. intros [= <-]. reflexivity.
  - intros l j v H. cbn [JsonCodec.read] in H. apply read_hex_sound in H as (b & -> & H1 & H2). cbn [JsonCodec.typed]. rewrite H1, H2. reflexivity.
  - intros l j v H. cbn [JsonCodec.read] in H. apply read_hex_sound in H as (b & -> & H1 & H2). cbn [JsonCodec.typed]. rewrite H1, H2. reflexivity.
  - intros l b j v. cbn [JsonCodec.read]. destruct j as [| | | |js|]; try discriminate. destruct (map_opt _ js) as [vs|] eqn:Hm; [|discriminate]. unfold guard.
    destruct (len_ok K l (lenN vs)) eqn:Hl; [|discriminate]. intros [= <-]. cbn [JsonCodec.typed]. rewrite Hl. cbn [andb]. apply map_opt_inv in Hm. clear Hl.
    induction Hm as [|x y js vs Hx _ IH]; [reflexivity|]. cbn [forallb]. rewrite IH, andb_true_r. destruct bw; [|discriminate Hx]. eapply read_num_sound; eauto.
  - intros l e IH j v. cbn [JsonCodec.read]. destruct j as [| | | |js|]; try discriminate. destruct (map_opt _ js) as [vs|] eqn:Hm; [|discriminate]. unfold guard.
    destruct (len_ok K l (lenN vs)) eqn:Hl; [|discriminate]. intros [= <-]. cbn [JsonCodec.typed]. rewrite Hl. cbn [andb]. apply map_opt_inv in Hm. clear Hl.
    induction Hm as [|x y js vs Hx _ IHm]; [reflexivity|]. cbn [forallb]. rewrite IHm, andb_true_r. eapply IH; eauto.
  - intros fs IH j v. destruct j as [| | | |js|kvs]; try discriminate.
    + rewrite read_arr. destruct (read_list bw fs js) as [vs|] eqn:Hr; [|discriminate]. intros [= <-]. rewrite typed_rec. revert js vs Hr.
      induction fs as [|[k t] fs IHf]; intros [|x js] vs Hr; cbn [read_list] in Hr; try discriminate; [injection Hr as <-; reflexivity|]. inversion IH as [|? ? I1 I2]; subst.
      destruct (read bw t x) as [y|] eqn:Hy; [|discriminate]. destruct (read_list bw fs js) as [ys|] eqn:Hys; [|discriminate]. injection Hr as <-. cbn [typed_fields snd] in *.
      rewrite (I1 x y Hy). exact (IHf I2 js ys Hys).
    + rewrite read_rec. destruct (read_fields bw kvs fs) as [vs|] eqn:Hr; [|discriminate]. intros [= <-]. rewrite typed_rec. revert vs Hr.
      induction fs as [|[k t] fs IHf]; intros vs Hr; cbn [read_fields] in Hr; [injection Hr as <-; reflexivity|]. inversion IH as [|? ? I1 I2]; subst.
      destruct (entries k kvs) as [|x [|]]; try discriminate.
      destruct (read bw t x) as [y|] eqn:Hy; [|discriminate]. destruct (read_fields bw kvs fs) as [ys|] eqn:Hys; [|discriminate]. injection Hr as <-. cbn [typed_fields snd] in *.
      rewrite (I1 x y Hy). exact (IHf I2 ys eq_refl).
Qed.

(** ** An integer without its attribute refuses what the API prescribes *)
Lemma lacking_refuses bw : forall t, lacking t = true -> forall v j, api_text t v j -> read bw t j = None.
Proof.
  apply (Ty_ind' (fun t => lacking t = true -> forall v j, api_text t v j -> read bw t j = None)); try (intros; discriminate).
  - intros b _ v j H. destruct v, j; try destruct H. reflexivity.
  - intros fs IH Hl v j H. cbn [lacking] in Hl. destruct v as [| | |vs], j as [| | | | |kvs]; try destruct H; try contradiction.
    assert (H' : api_text (TRec fs) (XSeq vs) (VObj kvs)) by (cbn [SpecCodec.api_text]; split; assumption). clear H H0. apply api_rec in H' as [Hd H].
    rewrite read_rec. replace (read_fields bw kvs fs) with (@None (list val)); [reflexivity|]. symmetry.
    revert vs H. induction fs as [|[k t] fs IHf]; intros [|v vs] H; cbn [api_fields] in H; try contradiction; [discriminate|].
    destruct H as [(x & Hx & Hv) H]. inversion IH as [|? ? I1 I2]; subst. cbn [existsb snd] in *.
    cbn [read_fields]. rewrite (entries_in k x kvs Hd Hx). apply orb_true_iff in Hl as [Hl|Hl].
    + rewrite (I1 Hl v x Hv). reflexivity.
    + rewrite (IHf I2 Hl vs H). destruct (read bw t x); reflexivity.
Qed.

(** ** Order and unknown members *)
Lemma read_fields_ext bw kvs kvs' fs : (forall k, In k (map fst fs) -> entries k kvs' = entries k kvs) -> read_fields bw kvs' fs = read_fields bw kvs fs.
Proof.
  induction fs as [|[k t] fs IH]; intros H; cbn [read_fields]; [reflexivity|]. rewrite (H k) by (left; reflexivity). rewrite IH by (intros; apply H; right; assumption). reflexivity.
Qed.
Lemma read_reorder bw fs kvs extra kvs' : NoDup (map fst kvs') -> Permutation kvs' (kvs ++ extra) -> (forall k, In k (map fst extra) -> ~ In k (map fst fs)) ->
  read bw (TRec fs) (VObj kvs') = read bw (TRec fs) (VObj kvs).
Proof.
  intros Hd Hp He. rewrite !read_rec. f_equal. apply read_fields_ext. intros k Hk.
  assert (Hx : entries k extra = []) by (apply entries_none; intros Hin; exact (He k Hin Hk)).
  pose proof (entries_perm k _ _ Hp) as P. rewrite entries_app, Hx, app_nil_r in P.
  destruct (in_dec string_dec k (map fst kvs')) as [Hin|Hin].
  - apply in_map_iff in Hin as ([k0 x] & Hk0 & Hin). cbn in Hk0. subst k0. rewrite (entries_in k x kvs' Hd Hin) in *.
    apply Permutation_length_1_inv in P. congruence.
  - rewrite (entries_none k kvs' Hin) in *. apply Permutation_nil in P. congruence.
Qed.
Lemma read_missing bw fs kvs k : In k (map fst fs) -> (forall x, entries k kvs <> [x]) -> read bw (TRec fs) (VObj kvs) = None.
Proof.
  intros Hk Hn. rewrite read_rec. replace (read_fields bw kvs fs) with (@None (list val)); [reflexivity|]. symmetry.
  induction fs as [|[k' t] fs IH]; [contradiction|]. cbn [read_fields map fst In] in *. destruct Hk as [->|Hk].
  - specialize (Hn). destruct (entries k kvs) as [|x [|y r]]; try reflexivity. exfalso. exact (Hn x eq_refl).
  - rewrite (IH Hk). destruct (entries k' kvs) as [|x [|y r]]; try reflexivity. destruct (read bw t x); reflexivity.
Qed.
End Codec.
