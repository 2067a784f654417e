(** Specification vocabulary for pending token accounts: versions along a chain of recorded parents. *)
From Verif Require Import Base DataModel TokenModel TokenUtilsModel TokenPendModel.

(** [version p s pk v]: slot [s] holds the pending version [v] of [pk]. *)
Definition version (p : pend) (s : N) (pk : pubkey) (v : pacct) : Prop :=
  exists b, (s, b) ∈ p /\ ps_accounts b !! pk = Some v.
(** [parent p s s']: the recorded parent of [s] is [s']. *)
Definition parent (p : pend) (s s' : N) : Prop := exists b, (s, b) ∈ p /\ ps_parent b = Some s'.
Definition present (p : pend) (s : N) : Prop := exists b, (s, b) ∈ p.
(** The version on the chain of [s] that is nearest to [s]: go up while the slot has none. *)
Inductive nearest (p : pend) (pk : pubkey) : N -> pacct * N -> Prop :=
| NHere s v : version p s pk v -> nearest p pk s (v, s)
| NUp s s' x : (forall v, ~ version p s pk v) -> parent p s s' -> nearest p pk s' x -> nearest p pk s x.
(** [s'] is [s] or an ancestor of [s], all of them present. *)
Inductive on_chain (p : pend) : N -> N -> Prop :=
| CHere s : present p s -> on_chain p s s
| CUp s s' t : parent p s s' -> on_chain p s' t -> on_chain p s t.
(** The newest version in a slot above [conf]. *)
Definition newest_above (p : pend) (conf : N) (pk : pubkey) (x : pacct * N) : Prop :=
  conf < x.2 /\ version p x.2 pk x.1 /\ forall s v, conf < s -> version p s pk v -> s <= x.2.
(** No slot is its own ancestor. *)
Inductive ancestor (p : pend) : N -> N -> Prop :=
| AOne s s' : parent p s s' -> ancestor p s s'
| AMore s s' t : parent p s s' -> ancestor p s' t -> ancestor p s t.
Definition acyclic (p : pend) : Prop := forall s, ~ ancestor p s s.
(** Parents come before their slots. *)
Definition parents_before (p : pend) : Prop := forall s s', parent p s s' -> s' < s.
