(** Specification vocabulary for queries that run while other calls run. *)
From Verif Require Import Base DataModel FilterModel ByCommitModel ByCommitSpec StoreModel StoreSpec ConcModel ConcQueryModel.

(** At this moment the store holds [x] for its pubkey at [c]: it shows it, or a call that inserts it is on its way. *)
Definition held (qs : qstate) (c : commitment) (x : acct) : Prop :=
  version_at (cs_st (qs_cs qs)) (d_pubkey x) c = Some x \/
  exists p, cs_pend (qs_cs qs) !! d_pubkey x = Some p /\ pd_acct p = x.
(** Executions in which every filter in force satisfies [Fok], every delivered account satisfies [Aok] and
    every state passed, first and last included, satisfies [P]. *)
Inductive qworld (E : ext) (Fok : filt -> Prop) (Aok : acct -> Prop) (P : qstate -> Prop) : qstate -> qstate -> Prop :=
| qw_refl qs : P qs -> qworld E Fok Aok P qs qs
| qw_other qs F j cs1 qs2 : P qs -> cstep (qs_cs qs) F j (Done cs1) -> Fok F ->
    (forall a c, cs_thr cs1 = cs_thr (qs_cs qs) ++ [TUpd a c] -> Aok a) ->
    qworld E Fok Aok P (QS cs1 (qs_q qs)) qs2 -> qworld E Fok Aok P qs qs2
| qw_query qs qs1 qs2 : P qs -> qstep E qs (Done qs1) -> qs_cs qs1 = qs_cs qs -> qworld E Fok Aok P qs1 qs2 ->
    qworld E Fok Aok P qs qs2.
(** [x] is held at some moment of such an execution from [qs] to [qs']. *)
Definition held_between (E : ext) (Fok : filt -> Prop) (Aok : acct -> Prop) (P : qstate -> Prop) (qs qs' : qstate) (c : commitment) (x : acct) : Prop :=
  exists qm, qworld E Fok Aok P qs qm /\ qworld E Fok Aok P qm qs' /\ held qm c x.
Definition any_filt (F : filt) : Prop := True.
Definition any_acct (a : acct) : Prop := True.
Definition any_state (qs : qstate) : Prop := True.
(** The program query [p], [fl], [c] has to show [pk]: its version is live, owned by [p] and meets the conditions. *)
Definition due (E : ext) (p : pubkey) (fl : option (list cond)) (c : commitment) (pk : pubkey) (qs : qstate) : Prop :=
  exists x, version_at (cs_st (qs_cs qs)) pk c = Some x /\ alive x /\ d_owner x = p /\ meets E fl x.

(** Accounts never change their owner: [own_of] gives it.  A filter list that does not ask for closed accounts. *)
Definition one_owner (own_of : pubkey -> pubkey) (a : acct) : Prop := alive a -> d_owner a = own_of (d_pubkey a).
Definition no_closed (F : filt) : Prop := forall a, ~ alive a -> fl_sat F a = false.
(** A call that runs from [t] on while nothing else runs, under the filters [F]: its end. *)
Inductive alone (F : filt) : store -> gmap pubkey pend -> thr -> res (store * outcome) -> Prop :=
| al_done st o : alone F st ∅ (TDone o) (Done (st, o))
| al_step st pd t st' pd' t' r : piece F st pd t = Some (Done (st', pd', t')) -> alone F st' pd' t' r -> alone F st pd t r
| al_panic st pd t : piece F st pd t = Some Panic -> alone F st pd t Panic.
Inductive qalone (E : ext) (F : filt) (st : store) : qthr -> res (result (list acct)) -> Prop :=
| ql_done r : qalone E F st (QEnd r) (Done r)
| ql_step q q' r : qpiece E F st q = Some (Done q') -> qalone E F st q' r -> qalone E F st q r
| ql_panic q : qpiece E F st q = Some Panic -> qalone E F st q Panic.
