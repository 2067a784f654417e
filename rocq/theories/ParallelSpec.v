(** What is observed of a parallel run. *)
From Verif Require Import Base DataModel AvecModel ParallelModel.

(** Everything that can happen from the call on. *)
Definition run_of (n : nat) (items : list (sres avec)) (s : pstate) : Prop := rtc (pstep n) (ps_start items) s.
(** The files that were consumed, in the order in which that was finished. *)
Definition consumed (s : pstate) : list avec := (ps_done s).*2.
(** The readable items of an iterator. *)
Fixpoint readable (l : list (sres avec)) : list avec :=
  match l with [] => [] | SOk v :: l' => v :: readable l' | SErr _ :: l' => readable l' end.
(** Which consumers are at work. *)
Fixpoint working (l : list task) : list nat :=
  match l with [] => [] | TRun c _ :: l' => c :: working l' | TEnd _ :: l' => working l' end.
