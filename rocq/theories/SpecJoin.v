(** * Specification vocabulary: validators becoming active *)
From Verif Require Import Base Types Ctx Env.

(** number of validators whose activation epoch is [e] *)
Definition joins_at (s : BeaconState) (e : N) : N := lenN (filter (fun v => v_activation_epoch v =? e) (validators s)).
(** ... and whose activation epoch is one of the [n] epochs from [a] *)
Definition joins_within (s : BeaconState) (a n : N) : N := lenN (filter (fun v => (a <=? v_activation_epoch v) && (v_activation_epoch v <? a + n)) (validators s)).
