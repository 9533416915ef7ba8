(** * Lemmas about the API client *)
From Coq Require Import Ascii String.
From Verif Require Import Base Types Text Json SpecText PropsText Api SpecApi.
Local Open Scope string_scope.
Local Open Scope N_scope.
Local Open Scope list_scope.

(** ** Numbers and bytes *)
Lemma digits_value_eq t : digits t -> forall acc, digits_value t acc = Some (dval t acc).
Proof.
  induction t as [|c r IH]; intros D acc; [reflexivity|]. cbn [digits_value dval]. inversion D as [|? ? Hc Hr]; subst.
  replace ((48 <=? c) && (c <=? 57)) with true by lia. rewrite IH by assumption. reflexivity.
Qed.
Lemma u64_text_digits n : n < 2 ^ 64 -> u64_text n <> [] /\ digits (u64_text n) /\ dval (u64_text n) 0 = n.
Proof. intro H. apply dec_denotes_iff. now apply u64_text_denotes. Qed.
Lemma number_text n : u64 n -> number (u64_text n) = Some n.
Proof.
  intro H. destruct (u64_text_digits n H) as (N0 & D & V). unfold number. destruct (u64_text n) as [|c r] eqn:E; [congruence|].
  rewrite digits_value_eq by assumption. rewrite V. unfold u64 in H. replace (n <? 2 ^ 64) with true; [reflexivity|]. symmetry. now apply N.ltb_lt.
Qed.
Lemma nibble_eq c : nibble c = hex_value c.
Proof.
  unfold nibble, hex_value. destruct ((48 <=? c) && (c <=? 57)); [reflexivity|]. destruct ((97 <=? c) && (c <=? 102)) eqn:E1; [f_equal; lia|].
  destruct ((65 <=? c) && (c <=? 70)) eqn:E2; [f_equal; lia|reflexivity].
Qed.
Lemma hex_bytes_text b : Forall (fun x => x < 256) b -> hex_bytes (hex_text b) = Some b.
Proof.
  induction b as [|x r IH]; intro F; [reflexivity|]. inversion F as [|? ? Hx Hr]; subst. unfold hex_text. cbn [flat_map hex_byte app hex_bytes].
  rewrite !nibble_eq, !hex_digit_ok by lia. fold (hex_text r). rewrite IH by assumption. do 2 f_equal. symmetry. now apply N.div_mod.
Qed.
Lemma hex_of_text n b : of_len n b -> hex_of n (to_hex b) = Some b.
Proof.
  intros [L F]. unfold to_hex. change (txt "0x") with [48; 120]. cbn [app hex_of]. rewrite hex_bytes_text by assumption. rewrite L. now rewrite N.eqb_refl.
Qed.
Lemma number_hex b : number (to_hex b) = None. Proof. reflexivity. Qed.

(** ** Characters *)
Lemma u64_text_chars n : u64 n -> Forall (fun c => 48 <= c <= 57) (u64_text n).
Proof. intro H. destruct (u64_text_digits n H) as (_ & D & _). exact D. Qed.
Lemma hex_text_chars b : Forall (fun x => x < 256) b -> Forall (fun c => 48 <= c <= 57 \/ 97 <= c <= 102) (hex_text b).
Proof.
  induction b as [|x r IH]; intro F; [constructor|]. inversion F as [|? ? Hx Hr]; subst. unfold hex_text. cbn [flat_map hex_byte app].
  fold (hex_text r). constructor; [|constructor; [|now apply IH]]; unfold hex_digit; match goal with |- context [if ?c then _ else _] => destruct c eqn:? end; lia.
Qed.
Definition plain (t : text) : Prop := ~ In slash t /\ ~ In comma t.
Lemma plain_digits t : Forall (fun c => 48 <= c <= 57) t -> plain t.
Proof. intro F. rewrite Forall_forall in F. split; intro H; apply F in H; unfold slash, comma in H; lia. Qed.
Lemma plain_number n : u64 n -> plain (u64_text n).
Proof. intro H. apply plain_digits. now apply u64_text_chars. Qed.
Lemma plain_hex n b : of_len n b -> plain (to_hex b).
Proof.
  intros [_ F]. apply hex_text_chars in F. rewrite Forall_forall in F. unfold to_hex. change (txt "0x") with [48; 120].
  split; intros [H|[H|H]]; try discriminate H; apply F in H; unfold slash, comma in H; lia.
Qed.

(** ** Identifiers *)
Lemma is_false s t c : In c (text_of s) -> ~ In c t -> is s t = false.
Proof.
  intros H N0. destruct (is s t) eqn:E; [|reflexivity]. unfold is in E. apply text_eqb_eq in E. subst t. elim N0. exact H.
Qed.
Lemma not_word s t c : nth_error (text_of s) 0 = Some c -> 103 <= c <= 122 -> Forall (fun c => 48 <= c <= 57 \/ 97 <= c <= 102) t -> is s t = false.
Proof.
  intros H R F. apply is_false with c; [eapply nth_error_In; exact H|]. intro I. rewrite Forall_forall in F. apply F in I. lia.
Qed.
Lemma is_hex s b : nth_error (text_of s) 0 <> Some 48 -> is s (to_hex b) = false.
Proof.
  intro H. unfold is, to_hex. change (txt "0x") with [48; 120]. fold (text_of s). destruct (text_of s) as [|c r]; [reflexivity|]. cbn [app text_eqb].
  destruct (N.eqb_spec 48 c) as [<-|]; [elim H; reflexivity|reflexivity].
Qed.
Lemma is_number s n c : u64 n -> In c (text_of s) -> 97 <= c -> is s (u64_text n) = false.
Proof.
  intros U H R. apply is_false with c; [exact H|]. intro I. pose proof (u64_text_chars n U) as F. rewrite Forall_forall in F. apply F in I. lia.
Qed.
Ltac words U := rewrite (is_number "head" _ 97 U), (is_number "genesis" _ 101 U), (is_number "finalized" _ 97 U)
  by (try lia; cbv; tauto).
Lemma a_state_text i : state_ok i -> a_state (state_id_text i) = Some i.
Proof.
  destruct i as [| | | |s|r]; try reflexivity; intro H; cbn [state_ok state_id_text] in *; unfold a_state.
  - words H. rewrite (is_number "justified" _ 117 H) by (try lia; cbv; tauto). now rewrite number_text.
  - rewrite !is_hex by (cbv; congruence). rewrite number_hex. now rewrite hex_of_text.
Qed.
Lemma a_block_text i : block_ok i -> a_block (block_id_text i) = Some i.
Proof.
  destruct i as [| | |s|r]; try reflexivity; intro H; cbn [block_ok block_id_text] in *; unfold a_block.
  - words H. now rewrite number_text.
  - rewrite !is_hex by (cbv; congruence). rewrite number_hex. now rewrite hex_of_text.
Qed.
Lemma a_validator_text v : validator_ok v -> a_validator (pki_text v) = Some v.
Proof.
  destruct v as [k|i]; intro H; cbn [validator_ok pki_text] in *; unfold a_validator.
  - rewrite number_hex. now rewrite hex_of_text.
  - now rewrite number_text.
Qed.
Lemma plain_word s : forallb (fun c => negb (c =? 47) && negb (c =? 44)) (text_of s) = true -> plain (text_of s).
Proof. intro H. rewrite forallb_forall in H. split; intro I; apply H in I; discriminate I. Qed.
Ltac word := match goal with |- plain (txt ?s) => apply (plain_word s); reflexivity end.
Lemma plain_state i : state_ok i -> plain (state_id_text i).
Proof. destruct i; intro H; cbn [state_id_text state_ok] in *; try word; [now apply plain_number|now apply plain_hex with 32]. Qed.
Lemma plain_block i : block_ok i -> plain (block_id_text i).
Proof. destruct i; intro H; cbn [block_id_text block_ok] in *; try word; [now apply plain_number|now apply plain_hex with 32]. Qed.
Lemma plain_validator v : validator_ok v -> plain (pki_text v).
Proof. destruct v; intro H; cbn [pki_text validator_ok] in *; [now apply plain_hex with 48|now apply plain_number]. Qed.
Lemma a_status_text s : a_status (status_text s) = Some s. Proof. destruct s; reflexivity. Qed.
Lemma a_peer_state_text s : a_peer_state (peer_state_text s) = Some s. Proof. destruct s; reflexivity. Qed.
Lemma a_direction_text s : a_direction (orientation_text s) = Some s. Proof. destruct s; reflexivity. Qed.
Lemma a_validation_text s : a_validation (broadcast_text s) = Some s. Proof. destruct s; reflexivity. Qed.
Lemma a_fork_text s : a_fork (fork_text s) = Some s. Proof. destruct s; reflexivity. Qed.
Lemma plain_status s : plain (status_text s). Proof. destruct s; cbn [status_text]; word. Qed.
Lemma plain_peer_state s : plain (peer_state_text s). Proof. destruct s; cbn [peer_state_text]; word. Qed.
Lemma plain_direction s : plain (orientation_text s). Proof. destruct s; cbn [orientation_text]; word. Qed.

(** ** Splitting *)
Fixpoint glue (a b : list text) : list text :=
  match a with
  | [] => b
  | [h] => match b with h' :: l => (h ++ h') :: l | [] => [h] end
  | h :: r => h :: glue r b
  end.
Lemma split_cons sep t : exists h l, split sep t = h :: l.
Proof. induction t as [|c r (h & l & E)]; cbn [split]; [eauto|]. destruct (c =? sep); [eauto|]. rewrite E. eauto. Qed.
Lemma split_app sep a : forall b, split sep (a ++ b) = glue (split sep a) (split sep b).
Proof.
  induction a as [|c r IH]; intro b.
  - cbn. destruct (split_cons sep b) as (h & l & ->). reflexivity.
  - cbn [app split]. rewrite IH. destruct (split_cons sep r) as (h & l & ->). destruct (split_cons sep b) as (h' & l' & ->).
    destruct (c =? sep).
    + reflexivity.
    + destruct l; reflexivity.
Qed.
Lemma split_plain sep t : ~ In sep t -> split sep t = [t].
Proof.
  induction t as [|c r IH]; intro H; [reflexivity|]. cbn [split]. destruct (N.eqb_spec c sep) as [->|]; [elim H; now left|].
  rewrite IH by (intro I; apply H; now right). reflexivity.
Qed.
Lemma split_join l : l <> [] -> Forall (fun t => ~ In comma t) l -> split comma (join_comma l) = l.
Proof.
  induction l as [|t r IH]; intros N0 F; [congruence|]. inversion F as [|? ? Ht Hr]; subst. destruct r as [|u r'].
  - now apply split_plain.
  - change (join_comma (t :: u :: r')) with (t ++ txt "," ++ join_comma (u :: r')). rewrite !split_app, (split_plain comma t Ht).
    change (split comma (txt ",")) with (@nil N :: [@nil N]). rewrite IH by (congruence || assumption). cbn [glue app]. now rewrite app_nil_r.
Qed.
Lemma all_of_map {A B} (rd : text -> option B) (g : A -> text) (P : A -> Prop) (h : A -> B) l :
  (forall a, P a -> rd (g a) = Some (h a)) -> Forall P l -> all_of rd (map g l) = Some (map h l).
Proof. intros H F. induction F as [|a r Ha Fr IH]; [reflexivity|]. cbn [map all_of]. rewrite H by assumption. now rewrite IH. Qed.
Lemma all_of_texts {A} (rd : text -> option A) (g : A -> text) (P : A -> Prop) l :
  (forall a, P a -> rd (g a) = Some a) -> Forall P l -> all_of rd (map g l) = Some l.
Proof. intros H F. rewrite (all_of_map rd g P (fun a => a)) by assumption. now rewrite map_id. Qed.

(** ** Bodies *)
Lemma text_of_jtext t : Forall (fun c => c < 256) t -> text_of (string_of_list_ascii (map ascii_of_N t)) = t.
Proof.
  intro F. unfold text_of. rewrite list_ascii_of_string_of_list_ascii, map_map. rewrite <- (map_id t) at 2. apply map_ext_in.
  intros c I. rewrite Forall_forall in F. now apply N_ascii_embedding, F.
Qed.
Lemma a_index_body_strings l : Forall u64 l -> a_index_body (index_strings l) = Some l.
Proof.
  intro F. unfold index_strings, a_index_body. induction F as [|i r Hi Fr IH]; [reflexivity|]. cbn [map all_of jtext].
  rewrite text_of_jtext.
  - rewrite number_text by assumption. cbn [map] in IH. now rewrite IH.
  - eapply Forall_impl; [|apply u64_text_chars; exact Hi]. intros c Hc; cbv beta in Hc; lia.
Qed.

(** ** Joining *)
Lemma up_to_slash_snoc b : up_to_slash (b ++ [47]) = b ++ [47].
Proof.
  induction b as [|c r IH]; [reflexivity|]. cbn [app up_to_slash]. rewrite IH. destruct (r ++ [47]) eqn:E; [now destruct r|reflexivity].
Qed.
Lemma up_to_slash_plain x : ~ In slash x -> up_to_slash x = [].
Proof.
  induction x as [|c r IH]; intro H; [reflexivity|]. cbn [up_to_slash]. rewrite IH by (intro I; apply H; now right).
  destruct (N.eqb_spec c 47) as [->|]; [elim H; now left|reflexivity].
Qed.
Lemma below_app base t : below base (base ++ t) = Some t.
Proof. induction base as [|c r IH]; [reflexivity|]. cbn [app below]. now rewrite N.eqb_refl. Qed.
Lemma below_iff base t u : below base t = Some u <-> t = base ++ u.
Proof.
  split; [|intros ->; apply below_app]. revert t. induction base as [|c r IH]; intros t H; cbn in H; [now inversion H|].
  destruct t as [|d t']; [discriminate|]. destruct (N.eqb_spec c d) as [->|]; [|discriminate]. cbn. f_equal. now apply IH.
Qed.

(** ** Paths with one or two parameters *)
Lemma split_sep sep a b : split sep (a ++ sep :: b) = split sep a ++ split sep b.
Proof.
  induction a as [|c r IH]; cbn [app split].
  - now rewrite N.eqb_refl.
  - destruct (c =? sep); [cbn; now rewrite IH|]. rewrite IH. destruct (split_cons sep r) as (h & l & ->). reflexivity.
Qed.
Lemma ends_sep (a : text) sep : last a 0 = sep -> a <> [] -> a = removelast a ++ [sep].
Proof. intros <- H. now apply app_removelast_last. Qed.
Lemma split_end pre x : last pre 0 = slash -> pre <> [] -> ~ In slash x -> split slash (pre ++ x) = split slash (removelast pre) ++ [x].
Proof.
  intros H N0 Hx. rewrite (ends_sep pre slash H N0) at 1. rewrite <- app_assoc. cbn [app]. rewrite split_sep. now rewrite (split_plain slash x Hx).
Qed.
Lemma split_mid pre x post : last pre 0 = slash -> pre <> [] -> hd 0 post = slash -> ~ In slash x ->
  split slash (pre ++ x ++ post) = split slash (removelast pre) ++ x :: split slash (tl post).
Proof.
  intros H N0 Hp Hx. destruct post as [|c post]; [discriminate Hp|]. cbn [hd tl] in *. subst c. rewrite (ends_sep pre slash H N0) at 1.
  rewrite <- app_assoc. cbn [app]. rewrite split_sep. f_equal. rewrite split_sep. now rewrite (split_plain slash x Hx).
Qed.
Lemma listed_text {A} (rd : text -> option A) (g : A -> text) (P : A -> Prop) a l :
  (forall a, P a -> rd (g a) = Some a) -> (forall a, P a -> plain (g a)) -> Forall P (a :: l) ->
  all_of rd (split comma (join_comma (map g (a :: l)))) = Some (a :: l).
Proof.
  intros H1 H2 F. rewrite split_join.
  - now apply all_of_texts with P.
  - discriminate.
  - apply Forall_map. eapply Forall_impl; [|exact F]. intros x Hx. apply (H2 x Hx).
Qed.
