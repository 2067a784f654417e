(** Handing storage files to several consumers: simulate_from_snapshot/src/snapshot_utils/parallel.rs.
    The function and the tasks it spawned take turns in any order.  A consumer is the number under which it was created.  Not
    modelled: cancelling the future, the work inside [on_append_vec] (it succeeds, or it fails by an error or a panic). *)
From Verif Require Import Base DataModel AvecModel.

(** A task of the [JoinSet] that was not joined yet: running with its consumer and its item, or finished: with the consumer, or
    ([None]) with an error or a panic, both of which [??] turns into an error (23, 34). *)
Inductive task := TRun (c : nat) (x : sres avec) | TEnd (c : option nat).
(** What the call returned; [OutPanic]: [expect("checked")] failed (23). *)
Inductive pout := OutOk | OutErr | OutPanic.
(** The rest of the iterator, the tasks, the number of consumers created; the calls of [on_append_vec] that succeeded and those
    that failed; the outcome. *)
Record pstate := PS { ps_items : list (sres avec); ps_tasks : list task; ps_made : nat;
                      ps_done : list (nat * avec); ps_bad : list (nat * avec); ps_out : option pout }.
Definition ps_start (items : list (sres avec)) : pstate := PS items [] 0 [] [] None.

(** [par_iter_append_vecs], 11-38; [n] is [num_threads].  [JoinSet::len] counts the tasks that are not joined yet, [join_next] takes
    any finished one; dropping the set (on return) aborts the rest. *)
Inductive pstep (n : nat) : pstate -> pstate -> Prop :=
(* 24-25, 28-31: a new consumer *)
| p_new x xs ts m dn bd : (length ts < n)%nat ->
    pstep n (PS (x :: xs) ts m dn bd None) (PS xs (ts ++ [TRun m x]) (S m) dn bd None)
(* 22-23, 28-31: the consumer of a finished task *)
| p_reuse x xs ts1 ts2 c m dn bd : (n <= length (ts1 ++ TEnd (Some c) :: ts2))%nat ->
    pstep n (PS (x :: xs) (ts1 ++ TEnd (Some c) :: ts2) m dn bd None) (PS xs (ts1 ++ ts2 ++ [TRun c x]) m dn bd None)
(* 23: the finished task failed *)
| p_fail x xs ts1 ts2 m dn bd : (n <= length (ts1 ++ TEnd None :: ts2))%nat ->
    pstep n (PS (x :: xs) (ts1 ++ TEnd None :: ts2) m dn bd None) (PS xs [] m dn bd (Some OutErr))
(* 23: there is no task *)
| p_panic x xs m dn bd : n = 0%nat ->
    pstep n (PS (x :: xs) [] m dn bd None) (PS xs [] m dn bd (Some OutPanic))
(* 33-35 *)
| p_join ts1 ts2 c m dn bd : pstep n (PS [] (ts1 ++ TEnd (Some c) :: ts2) m dn bd None) (PS [] (ts1 ++ ts2) m dn bd None)
| p_join_fail ts1 ts2 m dn bd : pstep n (PS [] (ts1 ++ TEnd None :: ts2) m dn bd None) (PS [] [] m dn bd (Some OutErr))
(* 37 *)
| p_return m dn bd : pstep n (PS [] [] m dn bd None) (PS [] [] m dn bd (Some OutOk))
(* 29: [append_vec?] *)
| t_unreadable xs ts1 ts2 c e m dn bd :
    pstep n (PS xs (ts1 ++ TRun c (SErr e) :: ts2) m dn bd None) (PS xs (ts1 ++ TEnd None :: ts2) m dn bd None)
(* 29-30: the consumer succeeds or fails *)
| t_consume xs ts1 ts2 c v m dn bd :
    pstep n (PS xs (ts1 ++ TRun c (SOk v) :: ts2) m dn bd None) (PS xs (ts1 ++ TEnd (Some c) :: ts2) m (dn ++ [(c, v)]) bd None)
| t_fail xs ts1 ts2 c v m dn bd :
    pstep n (PS xs (ts1 ++ TRun c (SOk v) :: ts2) m dn bd None) (PS xs (ts1 ++ TEnd None :: ts2) m dn (bd ++ [(c, v)]) None).
