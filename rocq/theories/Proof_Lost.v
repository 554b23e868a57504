(** Property values can be compared. *)
From Verif Require Import Base Model_Paths.
Open Scope list_scope.

Definition tree_dec : forall a b : tree, {a = b} + {a <> b}.
Proof.
  fix F 1. intros a b. destruct a as [v| |t|l|l], b as [v'| |t'|l'|l']; try (right; discriminate).
  - destruct (string_dec v v') as [->|N]; [now left|right; congruence].
  - now left.
  - destruct (F t t') as [->|N]; [now left|right; congruence].
  - assert ({l = l'} + {l <> l'}) as [->|N]; [|now left|right; congruence].
    revert l'. induction l as [|x l IH]; intros [|y l']; [now left|right; discriminate|right; discriminate|].
    destruct (F x y) as [->|N]; [|right; congruence]. destruct (IH l') as [->|N]; [now left|right; congruence].
  - assert ({l = l'} + {l <> l'}) as [->|N]; [|now left|right; congruence].
    revert l'. induction l as [|[k x] l IH]; intros [|[k' y] l']; [now left|right; discriminate|right; discriminate|].
    destruct (string_dec k k') as [->|N]; [|right; congruence]. destruct (F x y) as [->|N]; [|right; congruence].
    destruct (IH l') as [->|N]; [now left|right; congruence].
Defined.
