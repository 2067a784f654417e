(** Specification: orderly streams (LedgerSpec.v) during which accounts are loaded. *)
From Verif Require Import Base DataModel FilterModel ByCommitModel ByCommitSpec StoreModel StoreSpec LedgerSpec.

(** Besides the events of an orderly stream, an account may be loaded while the stream is running: a version older than the first slot, which is new
    to the ledger, or again a version of a finalized slot (or one that was loaded before). *)
Inductive late_event (L : ledger) : op -> ledger -> Prop :=
| le_event o L' : event L o L' -> late_event L o L'
| le_load a r : lg_root L = Some r -> d_slot a < r ->
    late_event L (OInit a) (Ledger (lg_base L ++ [a]) (lg_root L) (lg_parent L) (lg_writes L) (lg_conf L) (lg_fin L))
| le_again a : is_Some (lg_root L) -> counts L Finalized a -> late_event L (OInit a) L.
Inductive mixed : list (filt * op) -> ledger -> Prop :=
| mx_nil : mixed [] no_ledger
| mx_snoc h L F o L' : mixed h L -> late_event L o L' -> mixed (h ++ [(F, o)]) L'.
