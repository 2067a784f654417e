(** Model of [AccountsOnDemand], accounts_on_demand/src/accounts_on_demand.rs 28-215, called by any number of threads. *)
From Verif Require Import Base DataModel FilterModel BincodeModel StoreModel DispatchModel.

(** What the source was asked to do and did, in order (for the specification only):
    a subscription with its outcome, a snapshot saved, a filter added by somebody else. *)
Inductive note := NAcc (pk : pubkey) (ok : bool) | NProg (p : pubkey) (fl : option (list cond)) (ok : bool) | NSaved (f : afilter) | NOther (f : afilter).

(** The shared state, 30-36: the storage behind it, the mutable filter store ([None]: its lock is poisoned by a panic in
    [add_account_filters]), and the two maps of loads in progress (condition variables carry no state), each with the poison
    flag of its mutex. *)
Record od (S : Type) := OD {
  od_st : S;
  od_filters : option fstore;
  od_acc : gset pubkey;
  od_acc_poison : bool;
  od_gpa : list (pubkey * list cond);
  od_gpa_poison : bool;
  od_log : list note }.
Arguments OD {_} _ _ _ _ _ _ _.
Arguments od_st {_} _.
Arguments od_filters {_} _.
Arguments od_acc {_} _.
Arguments od_acc_poison {_} _.
Arguments od_gpa {_} _.
Arguments od_gpa_poison {_} _.
Arguments od_log {_} _.

(** Where a call stands. *)
Inductive thr :=
| AStart (pk : pubkey) (c : commitment)  (* 65-70 *)
| ALock (pk : pubkey) (c : commitment)   (* 76 *)
| AWait (pk : pubkey) (c : commitment)   (* 79 *)
| ASave (pk : pubkey) (c : commitment)   (* 107 *)
| AClear (pk : pubkey) (c : commitment)  (* 112 *)
| ARead (pk : pubkey) (c : commitment)   (* 119 *)
| ADone (r : result (option acct))
| PStart (p : pubkey) (fl : option (list cond)) (c : commitment)  (* 127-140 *)
| PQuery (p : pubkey) (fl : option (list cond)) (c : commitment)  (* 141 *)
| PLock (p : pubkey) (fl : option (list cond)) (c : commitment)   (* 145 *)
| PWait (p : pubkey) (fl : option (list cond)) (c : commitment)   (* 151 *)
| PAdd (p : pubkey) (fl : option (list cond)) (c : commitment)    (* 175 *)
| PSave (p : pubkey) (fl : option (list cond)) (c : commitment)   (* 178 *)
| PClear (p : pubkey) (fl : option (list cond)) (c : commitment)  (* 183 *)
| PRead (p : pubkey) (fl : option (list cond)) (c : commitment)   (* 191 *)
| PDone (r : result (list acct))
| TDead.                                 (* the thread panicked *)
(** What the source does: answer a subscription, store an account while saving a snapshot, finish saving
    ([AccountsSourceInterface], common/src/accounts_source_interface.rs 9-23). *)
Inductive inp := IGo | ISub (ok : bool) | ISave (a : acct) | ISaved (ok : bool).

(** The filter of an account request, 102-106, and of a program request, 133-137. *)
Definition acc_filter (pk : pubkey) : afilter := AFilter [pk] None None.
Definition prog_filter (p : pubkey) (fl : option (list cond)) : afilter := AFilter [] (Some p) fl.
(** The key of a program load, 147, 168, 185. *)
Definition gpa_key (p : pubkey) (fl : option (list cond)) : pubkey * list cond := (p, default [] fl).

Section od.
(** [E]: decoders; [I]: the storage, which may consult the filter store. *)
Context {S : Type} (E : ext) (I : option fstore -> iface S).

Definition set_st (o : od S) (s : S) : od S := OD s (od_filters o) (od_acc o) (od_acc_poison o) (od_gpa o) (od_gpa_poison o) (od_log o).
Definition set_filters (o : od S) f : od S := OD (od_st o) f (od_acc o) (od_acc_poison o) (od_gpa o) (od_gpa_poison o) (od_log o).
Definition set_acc (o : od S) a b : od S := OD (od_st o) (od_filters o) a b (od_gpa o) (od_gpa_poison o) (od_log o).
Definition set_gpa (o : od S) g b : od S := OD (od_st o) (od_filters o) (od_acc o) (od_acc_poison o) g b (od_log o).
Definition add_log (o : od S) n : od S := OD (od_st o) (od_filters o) (od_acc o) (od_acc_poison o) (od_gpa o) (od_gpa_poison o) (od_log o ++ [n]).

(** A read of the storage outside the mutexes (81, 119 / 141, 191). *)
Definition a_read (o : od S) pk c : od S * thr :=
  match i_get (I (od_filters o)) (od_st o) pk c with Done r => (o, ADone r) | Panic => (o, TDead) end.
Definition p_read (o : od S) p fl c : od S * thr :=
  match i_gpa (I (od_filters o)) (od_st o) p fl c with Done r => (o, PDone r) | Panic => (o, TDead) end.
(** [save_snapshot] stores one account (through [initilize_or_update_account]). *)
Definition save_one (o : od S) (t : thr) a : od S * thr :=
  match i_init (I (od_filters o)) (od_st o) a with Done s => (set_st o s, t) | Panic => (o, TDead) end.

(** One step of a call.  A step is what happens between two points at which other threads can get in; the mutex is held across
    the subscription (76-99, 145-174) and while the storage is read after a wait (the guard lives to the end of the [match],
    79-82, 151-163), so each of these is one step.  A wait ends at any time: by a notification, after ten seconds or spuriously,
    and [Ok(_)] is taken in all three cases; [Err] means that the mutex is poisoned. *)
Definition adv (o : od S) (t : thr) (i : inp) : option (od S * thr) :=
  match t, i with
  (* get_account, 65-125 *)
  | AStart pk c, IGo =>
      Some (match i_get (I (od_filters o)) (od_st o) pk c with
            | Done (ROk None) => (o, ALock pk c)
            | Done r => (o, ADone r)
            | Panic => (o, TDead)
            end)
  | ALock pk c, _ =>
      if od_acc_poison o then Some (o, TDead)
      else if bool_decide (pk ∈ od_acc o) then Some (o, AWait pk c)
      else match od_filters o with
           | None => Some (set_acc o (od_acc o) true, TDead)
           | Some f =>
               if contains_account f pk then Some (o, ADone (ROk None))
               else match i with
                    | ISub ok => Some (add_log (set_acc o (od_acc o ∪ {[pk]}) false) (NAcc pk ok),
                                       if ok then ASave pk c else ADone (RErr ErrorSubscribingAccount))
                    | _ => None
                    end
           end
  | AWait pk c, IGo =>
      Some (if od_acc_poison o then (o, ADone (RErr OperationTimeOut))
            else match a_read o pk c with
                 | (o', TDead) => (set_acc o' (od_acc o') true, TDead)
                 | r => r
                 end)
  | ASave pk c, ISave a => Some (save_one o t a)
  | ASave pk c, ISaved true => Some (add_log o (NSaved (acc_filter pk)), AClear pk c)
  | ASave pk c, ISaved false => Some (o, ADone (RErr ErrorCreatingSnapshot))
  | AClear pk c, IGo => Some (if od_acc_poison o then (o, TDead) else (set_acc o (od_acc o ∖ {[pk]}) false, ARead pk c))
  | ARead pk c, IGo => Some (a_read o pk c)
  (* get_program_accounts, 127-196 *)
  | PStart p fl c, IGo =>
      Some (match od_filters o with
            | None => (o, TDead)
            | Some f => (o, if contains_filter f (prog_filter p fl) then PQuery p fl c else PLock p fl c)
            end)
  | PQuery p fl c, IGo => Some (p_read o p fl c)
  | PLock p fl c, _ =>
      if od_gpa_poison o then Some (o, TDead)
      else if bool_decide (gpa_key p fl ∈ od_gpa o) then Some (o, PWait p fl c)
      else match i with
           | ISub ok => Some (add_log (set_gpa o (gpa_key p fl :: od_gpa o) false) (NProg p fl ok),
                              if ok then PAdd p fl c else PDone (RErr ErrorSubscribingAccount))
           | _ => None
           end
  | PWait p fl c, IGo =>
      Some (if od_gpa_poison o then (o, PDone (RErr OperationTimeOut))
            else match p_read o p fl c with
                 | (o', TDead) => (set_gpa o' (od_gpa o') true, TDead)
                 | r => r
                 end)
  | PAdd p fl c, IGo =>
      Some (match od_filters o with
            | None => (o, TDead)
            | Some f => match add_filter E f (prog_filter p fl) with
                        | Done f' => (set_filters o (Some f'), PSave p fl c)
                        | Panic => (set_filters o None, TDead)
                        end
            end)
  | PSave p fl c, ISave a => Some (save_one o t a)
  | PSave p fl c, ISaved true => Some (add_log o (NSaved (prog_filter p fl)), PClear p fl c)
  | PSave p fl c, ISaved false => Some (o, PDone (RErr ErrorCreatingSnapshot))
  | PClear p fl c, IGo =>
      Some (if od_gpa_poison o then (o, TDead)
            else (set_gpa o (filter (fun k => k <> gpa_key p fl) (od_gpa o)) false, PRead p fl c))
  | PRead p fl c, IGo => Some (p_read o p fl c)
  | _, _ => None
  end.

(** Everything that can happen: a call begins, a call makes a step, the storage changes otherwise (updates, slots, other
    snapshots), somebody else adds a filter to the filter store. *)
Inductive ev := EGet (pk : pubkey) (c : commitment) | EGpa (p : pubkey) (fl : option (list cond)) (c : commitment)
| EAdv (n : nat) (i : inp) | EStore (s : S) | EFilter (f : afilter).
Definition sys := (od S * list thr)%type.
Definition od_step (x : sys) (e : ev) : option sys :=
  let '(o, ts) := x in
  match e with
  | EGet pk c => Some (o, ts ++ [AStart pk c])
  | EGpa p fl c => Some (o, ts ++ [PStart p fl c])
  | EAdv n i => match ts !! n with
                | Some t => match adv o t i with Some (o', t') => Some (o', <[n := t']> ts) | None => None end
                | None => None
                end
  | EStore s => Some (set_st o s, ts)
  | EFilter f => match od_filters o with
                 | None => None
                 | Some fs => match add_filter E fs f with
                              | Done fs' => Some (add_log (set_filters o (Some fs')) (NOther f), ts)
                              | Panic => Some (set_filters o None, ts)
                              end
                 end
  end.
Fixpoint od_run (x : sys) (l : list ev) : option sys :=
  match l with [] => Some x | e :: l' => match od_step x e with Some x' => od_run x' l' | None => None end end.
(** [new], 39-51, with a given filter store and storage; no calls yet. *)
Definition od_new (s : S) (f : fstore) : sys := (OD s (Some f) ∅ false [] false [], []).
End od.
Arguments ev _ : clear implicits.
Arguments sys _ : clear implicits.

(** The in-memory store behind the on-demand storage, sharing its filter store (a [MutableFilterStore] implements
    [AccountFiltersStoreInterface], common/src/mutable_filter_store.rs 32-41).  With a poisoned lock every question to the
    filter store panics. *)
Definition mem_iface (E : ext) (of : option fstore) : iface store :=
  match of with
  | Some f =>
      let sat a := match satisfies E f a with Done b => b | Panic => false end in
      let F := Filt sat (contains_filter f) in
      Iface (update_account F) (init_account F) get_account (get_program_accounts E F) (process_slot F) (create_snapshot E F) (load_from_snapshot F)
  | None =>
      (* 208-214 asks for every live account, 245 for a closed one that is not tracked, and only these cases; queries and
         snapshots ask first (302, 458).  A slot notification asks only about an account whose owner changed: taken as [false]. *)
      let F := Filt (fun _ => false) (fun _ => false) in
      let upd st a c := if is_deleted a && contains_key st (d_pubkey a) then update_account F st a c else Panic in
      let ini st a := '(st', _) ← upd st a Finalized; Done st' in
      Iface upd ini get_account (fun _ _ _ _ => Panic) (process_slot F) (fun _ _ => Panic)
        (fun st _ b => match unbincode_accounts b with
           | None => Done (st, RErr DeserializationIssues)
           | Some l => st' ← foldl (fun r a => st ← r; ini st a) (Done st) l; Done (st', ROk tt) end)
  end.
