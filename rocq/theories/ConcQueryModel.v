(** Program queries of [account_storage/src/inmemory_account_store.rs] that run while other calls run.

    The other calls are those of ConcModel.v, piece by piece.  Simplifications:
    - a query holds the owner set for reading during its first pass and [accounts_store] for reading until it
      returns; both only keep other calls from running, and here they may run all the same: more executions;
    - an index whose entry is locked is put on the retry list and visited later; here the indices are visited in
      any order, each once, with any pieces of other calls between two visits;
    - a writer changes the owner sets while it holds the lock of the entry, and that is one piece in ConcModel.v.  A query
      looks at one owner set only and waits for the entry, so it sees such a piece as if it ran at the moment
      at which it changes that set;
    - blocking forever is the subject of LockModel.v. *)
From Verif Require Import Base DataModel FilterModel BincodeModel ByCommitModel StoreModel ConcModel.

(** Where a query is. *)
Inductive qthr :=
| QGpa (p : pubkey) (fl : option (list cond)) (c : commitment) (* get_program_accounts, before 300 *)
| QOwn (p : pubkey) (fl : option (list cond)) (c : commitment) (* before 307 *)
| QSet (p : pubkey) (fl : option (list cond)) (c : commitment) (* before 318, holding the [Arc] of the owner set *)
| QWalk (p : pubkey) (fl : option (list cond)) (c : commitment) (todo : list nat) (out : list acct) (* in the loops 318-344 *)
| QEnd (r : result (list acct)).
(** One piece of a query; nothing is written.  [None]: it has returned.  [store_read_lk[i]] panics out of bounds. *)
Definition qpiece (E : ext) (F : filt) (st : store) (q : qthr) : option (res qthr) :=
  match q with
  | QGpa p fl c =>
      Some (Done (if fl_contains F (AFilter [] (Some p) fl) then QOwn p fl c
                  else QEnd (RErr ConfigDoesnotContainRequiredFilters)))
  | QOwn p fl c => Some (Done (match st_owners st !! p with Some _ => QSet p fl c | None => QEnd (ROk []) end))
  | QSet p fl c => Some (Done (QWalk p fl c (elements (default ∅ (st_owners st !! p))) []))
  | QWalk p fl c (i :: todo) out =>
      Some (b ← unwrap (st_accounts st !! i); l ← gpa_entry E b c p fl; Done (QWalk p fl c todo (out ++ l)))
  | QWalk p fl c [] out => Some (Done (QEnd (ROk out)))
  | QEnd _ => None
  end.

(** The store with its other calls, and the queries. *)
Record qstate := QS { qs_cs : cstate; qs_q : list qthr }.
Definition qs_empty : qstate := QS cs_empty [].
(** One step of anything; [Panic] when the piece panics. *)
Inductive qstep (E : ext) (qs : qstate) : res qstate -> Prop :=
| qs_other F j r : cstep (qs_cs qs) F j r -> qstep E qs (cs' ← r; Done (QS cs' (qs_q qs)))
| qs_query F j q r : qs_q qs !! j = Some q -> qpiece E F (cs_st (qs_cs qs)) q = Some r ->
    qstep E qs (q' ← r; Done (QS (qs_cs qs) (<[j := q']> (qs_q qs))))
(* the set of indices is visited in any order *)
| qs_shuffle j p fl c todo todo' out : qs_q qs !! j = Some (QWalk p fl c todo out) -> Permutation todo' todo ->
    qstep E qs (Done (QS (qs_cs qs) (<[j := QWalk p fl c todo' out]> (qs_q qs))))
(* a new query *)
| qs_call p fl c : qstep E qs (Done (QS (qs_cs qs) (qs_q qs ++ [QGpa p fl c]))).
Inductive qreach (E : ext) : qstate -> qstate -> Prop :=
| qreach_refl qs : qreach E qs qs
| qreach_step qs qs1 qs2 : qstep E qs (Done qs1) -> qreach E qs1 qs2 -> qreach E qs qs2.
