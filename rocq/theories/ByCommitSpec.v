(** Specification vocabulary for the versions of one account. *)
From Verif Require Import Base DataModel FilterModel ByCommitModel.

(** Version order: slot first, then write version. *)
Definition version_le (a b : acct) : Prop :=
  d_slot a < d_slot b \/ (d_slot a = d_slot b /\ d_wv a <= d_wv b).

(** [stronger c' c]: commitment [c'] implies commitment [c]. *)
Definition rank (c : commitment) : N := match c with Processed => 0 | Confirmed => 1 | Finalized => 2 end.
Definition at_least (c c' : commitment) : Prop := rank c <= rank c'.

(** Version [a] was delivered at commitment [c] or stronger. *)
Definition delivered (h : list abc_op) (c : commitment) (a : acct) : Prop :=
  exists c', AUpdate a c' ∈ h /\ at_least c c'.

(** [a] is the newest of the versions with property [P]. *)
Definition newest (P : acct -> Prop) (a : acct) : Prop :=
  P a /\ forall a', P a' -> version_le a' a.

(** A (slot, write version) pair names one version: deliveries agree on it. *)
Definition coherent (h : list abc_op) : Prop :=
  forall a c a' c', AUpdate a c ∈ h -> AUpdate a' c' ∈ h ->
    d_slot a = d_slot a' -> d_wv a = d_wv a' -> a = a'.

Definition only_updates (h : list abc_op) : Prop := forall o, o ∈ h -> exists a c, o = AUpdate a c.

(** The newest version written in slot [s]. *)
Definition slot_write (h : list abc_op) (s : N) (a : acct) : Prop :=
  newest (fun a => (exists c, AUpdate a c ∈ h) /\ d_slot a = s) a.

(** No finalization past slot [s] happened yet. *)
Definition not_finalized_past (h : list abc_op) (s : N) : Prop :=
  forall s', APromote s' Finalized ∈ h -> s' <= s.

(** Two account records that differ only in how the data is stored. *)
Definition same_account (E : ext) (a b : acct) : Prop :=
  d_pubkey a = d_pubkey b /\ d_lamports a = d_lamports b /\ d_owner a = d_owner b /\
  a_executable (d_account a) = a_executable (d_account b) /\
  a_rent_epoch (d_account a) = a_rent_epoch (d_account b) /\
  d_slot a = d_slot b /\ d_wv a = d_wv b /\ data_bytes E (d_data a) = data_bytes E (d_data b).
