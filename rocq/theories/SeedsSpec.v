(** Words used in the statements about seeds. *)
From Coq Require Import NArith List.

(** Setting a seed forgets the state before (C30). *)
Definition forgets {St} (set : St -> N -> St) : Prop :=
  forall s s' x, set s x = set s' x.

(** A test that, on buffers satisfying [clean], does not depend on them and
    leaves buffers satisfying [clean]. *)
Definition tidy {St Bf Re} (clean : Bf -> Prop) (t : St -> Bf -> Re * (St * Bf)) : Prop :=
  forall s b b', clean b -> clean b' ->
    fst (t s b) = fst (t s b') /\ fst (snd (t s b)) = fst (snd (t s b')) /\
    clean (snd (snd (t s b))).
