(** Specification: a stream seen from its start and from a later moment. *)
From Verif Require Import Base DataModel FilterModel ByCommitModel ByCommitSpec StoreModel StoreSpec OwnerSpec LedgerSpec.

(** The stream goes on: from the ledger [L0] to the ledger [L]. *)
Inductive onward (L0 : ledger) : list (filt * op) -> ledger -> Prop :=
| on_nil : onward L0 [] L0
| on_snoc k L F o L' : onward L0 k L -> event L o L' -> onward L0 (k ++ [(F, o)]) L'.

(** [Lg] is what a late listener knows of the ledger [L]: the slots from a child of [f] on as far as it heard of them, with their writes, and the newest
    confirmed and finalized slot, if newer than [f]. *)
Record hears (f : N) (L Lg : ledger) : Prop := Hears {
  he_base : lg_base Lg = [];
  he_root : forall r, lg_root Lg = Some r -> lg_parent L !! r = Some f;
  he_parent : forall s q, lg_parent Lg !! s = Some q -> lg_parent L !! s = Some q;
  he_writes : forall a, a ∈ lg_writes Lg <-> a ∈ lg_writes L /\ known Lg (d_slot a);
  he_conf : lg_conf L = Some (default f (lg_conf Lg));
  he_fin : lg_fin L = Some (default f (lg_fin Lg)) }.
(** At processed, the listener must have heard of every slot that is not settled by [f]. *)
Definition hears_all (f : N) (L Lg : ledger) : Prop := forall a, a ∈ lg_writes L -> known Lg (d_slot a) \/ branch L f (d_slot a).

(** Some filter of the listener. *)
Definition filters_of (F' : filt) (g : list (filt * op)) (G : filt) : Prop := G = F' \/ exists o, (G, o) ∈ g.
(** The account is of interest to the listener, too, while it is alive (or all the time); when it is closed, this is the last version the listener gets. *)
Definition of_interest (h g : list (filt * op)) (F' : filt) (pk : pubkey) : Prop :=
  (steady h pk /\ forall G a, filters_of F' g G -> delivered_in h a -> d_pubkey a = pk -> fl_sat G a = true) \/
  (closes_once h pk /\ (forall G a, filters_of F' g G -> delivered_in h a -> d_pubkey a = pk -> alive a -> fl_sat G a = true) /\
   forall g1 G o g2 a G' o' b, g = g1 ++ (G, o) :: g2 -> delivers o a -> d_pubkey a = pk -> ~ alive a -> (G', o') ∈ g2 -> delivers o' b -> d_pubkey b <> pk).

(** A listener that loads a snapshot while it is listening, [Lg1] being what it knows by then and [q] the slot before the first one it heard of: it has finalized
    the slot [f] of the snapshot, or [f] is [q]. *)
Definition caught_up (L Lg1 : ledger) (q f : N) : Prop := f = q \/ exists f1, lg_fin Lg1 = Some f1 /\ branch L f1 f.
(** The accounts of the snapshot have not left the program [p] since, as far as the listener has heard in [g1]. *)
Definition owner_kept (L0 : ledger) (g1 : list (filt * op)) (p : pubkey) : Prop := forall G o b a,
  (G, o) ∈ g1 -> delivers o b -> in_ledger L0 (d_pubkey b) Finalized (Some a) -> d_owner a = p -> d_owner b = p \/ ~ version_le a b.
