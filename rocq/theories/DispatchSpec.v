(** Vocabulary for the theorems about the dispatching storage. *)
From Verif Require Import Base DataModel FilterModel StoreModel DispatchModel.

(** The programs of the map are distinct (it is a map). *)
Definition one_child_each (D : disp) : Prop := NoDup (fst <$> dp_map D).
(** The object responsible for a program: the one registered for it, or else the default. *)
Definition responsible (D : disp) (p : pubkey) (i : nat) : Prop :=
  (p, i) ∈ dp_map D \/ ((forall j, (p, j) ∉ dp_map D) /\ i = dp_default D).
(** All registrations in the order of visit; the default comes last. *)
Definition registrations (D : disp) : list nat := (snd <$> dp_map D) ++ [dp_default D].
(** No object is registered twice. *)
Definition unshared (D : disp) : Prop := NoDup (registrations D).
(** [h'] is [h] with the state of object [i] replaced by [s]. *)
Definition only_changed {S} (h : heap S) (i : nat) (s : S) (h' : heap S) : Prop := h' i = s /\ forall j, j <> i -> h' j = h j.

(** Objects asked one after the other, all of which refuse the update. *)
Inductive refused {S} (I : nat -> iface S) (a : acct) (c : commitment) : heap S -> list nat -> heap S -> Prop :=
| refused_none h : refused I a c h [] h
| refused_next h i s h1 l h' :
    i_update (I i) (h i) a c = Done (s, false) -> only_changed h i s h1 -> refused I a c h1 l h' -> refused I a c h (i :: l) h'.
(** Objects notified one after the other, with their reports. *)
Inductive notified {S} (I : nat -> iface S) (si : slot_info) (c : commitment) : heap S -> list nat -> list (list acct) -> heap S -> Prop :=
| notified_none h : notified I si c h [] [] h
| notified_next h i s t h1 l ts h' :
    i_slot (I i) (h i) si c = Done (s, t) -> only_changed h i s h1 -> notified I si c h1 l ts h' -> notified I si c h (i :: l) (t :: ts) h'.
