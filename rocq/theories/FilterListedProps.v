(** Which accounts a filter store reports as listed (C02). *)
From Verif Require Import Base DataModel FilterModel FilterSpec FilterProofs FilterProps.

(** C02: the store reports an account as listed exactly if it did so before or one of the filters added names it, and every account reported
    as listed is admitted, whatever its owner and data. *)
Theorem C02_listed_accounts_exact : forall (E : ext) st fs st', add_filters E st fs = Done st' ->
  (forall pk, contains_account st' pk = true <-> contains_account st pk = true \/ exists f, f ∈ fs /\ pk ∈ f_accounts f) /\
  (forall a, contains_account st' (d_pubkey a) = true -> satisfies E st' a = Done true).
Proof.
  intros E st fs st' H. split.
  - revert st H. induction fs as [|f fs IH]; intros st H pk; simpl in H.
    + injection H as <-. split; [by left|]. intros [?|(f & Hf & _)]; [done|by apply elem_of_nil in Hf].
    + destruct (add_filter E st f) as [s1|] eqn:Hf; [|done]. simpl in H. rewrite (IH _ H pk).
      assert (contains_account s1 pk = true <-> contains_account st pk = true \/ pk ∈ f_accounts f) as ->.
      { assert (fs_accounts s1 = fs_accounts st ∪ list_to_set (f_accounts f)) as Hs.
        { unfold add_filter in Hf. destruct (f_program f) as [p|]; [|by injection Hf as <-]. destruct (fs_programs st !! p) as [[|cur]|]; [by injection Hf as <-|..].
          - by destruct (f_filters f); injection Hf as <-.
          - destruct (f_filters f) as [new|]; [|by injection Hf as <-]. destruct (map_r (normalize E) new); [|done]. by injection Hf as <-. }
        unfold contains_account. rewrite !bool_decide_eq_true, Hs, elem_of_union, elem_of_list_to_set. done. }
      split.
      * intros [[?|?]|(g & ? & ?)]; [by left|right; exists f; split; [left|done]|right; exists g; split; [by right|done]].
      * intros [?|(g & [->|?]%elem_of_cons & ?)]; [by left; left|by left; right|right; eauto].
  - intros a Ha. unfold contains_account in Ha. unfold satisfies. by rewrite Ha.
Qed.
Print Assumptions C02_listed_accounts_exact.
Example C02_example_listed : exists st, add_filters ext_sample fstore_empty ex_filters = Done st /\ contains_account st 42 = true /\ contains_account st 7 = false.
Proof. eexists. split; [by vm_compute|]. by vm_compute. Qed.
