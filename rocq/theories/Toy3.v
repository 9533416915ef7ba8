(** * Concrete blocks and signatures for the examples *)
From Verif Require Import Base BaseLemmas Types Ctx Env Helpers HelpersAltair HelpersElectra Block SpecCommon SpecShuffle SpecHelpers SpecOps SpecElectra
  ToyCtx Toy Toy2.

Lemma tiny_sane_electra : ctx_sane_electra tiny. Proof. unfold ctx_sane_electra. vm_compute. repeat split; congruence. Qed.
Lemma tiny_quotients f : slashing_quotients_pos tiny f. Proof. destruct f; vm_compute; repeat split; congruence. Qed.
(** signature of toy validator [i] on [o] for epoch [e] in state [s] *)
Definition tiny_signature (s : BeaconState) (d : DomainType) (e : N) (o : SszObj) (i : N) : bytes :=
  match get_domain tiny s d (Some e) with Ok dom => toy_sign (toy_pk i) (tiny_signing_root dom o) | _ => [] end.
Definition slash_toy : BeaconState := tiny_state 4 13.
Lemma slash_toy_amounts : amounts_small slash_toy /\ effective_bounded slash_toy /\ exits_below slash_toy (2 ^ 62).
Proof.
  split; [split|split].
  - intros b Hb. cbn in Hb. destruct Hb as [<-|[<-|[<-|[<-|[]]]]]; reflexivity.
  - intros b Hb. cbn in Hb. destruct Hb as [<-|[<-|[<-|[<-|[<-|[<-|[<-|[<-|[]]]]]]]]]; reflexivity.
  - intros v Hv. cbn in Hv. destruct Hv as [<-|[<-|[<-|[<-|[]]]]]; vm_compute; discriminate.
  - intros v Hv Hne. exfalso. apply Hne. cbn in Hv. destruct Hv as [<-|[<-|[<-|[<-|[]]]]]; reflexivity.
Qed.

(** a block body without operations *)
Definition tiny_payload (s : BeaconState) : ExecutionPayload :=
  mkPayload zero32 (repeat 0 20) zero32 zero32 [] (match nthN (randao_mixes s) (epoch_of tiny s mod 8) with Some m => m | None => [] end)
    7 30000000 2000 (genesis_time s + slot s * 6) [] 1 (repeat 5 32) [] [] 0 0 [] [].
Definition tiny_body (s : BeaconState) (p : N) : BeaconBlockBody :=
  mkBody (tiny_signature s DRandao (epoch_of tiny s) (OU64 (epoch_of tiny s)) p) (mkEth1 (repeat 9 32) 4 (repeat 8 32)) zero32
    [] [] [] [] [] (mkSyncAgg [false; false; false; false] INFINITY_SIGNATURE) (tiny_payload s) [] [] [].
(** a block of proposer [p] at the slot of [s] *)
Definition tiny_block (s : BeaconState) (p : N) : BeaconBlock :=
  mkBlock (slot s) p (match htr tiny (OHeader (latest_block_header s)) with Some r => r | None => [] end) zero32 (tiny_body s p).
