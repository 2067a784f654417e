(** C08, C72, C73: exactly which texts are accepted as filters, against the grammar of JSON. *)
From Verif Require Import Base DataModel FilterModel AvecSpec Base58Model JsonModel JsonSpec JsonProofs JsonGrammar JsonSound FilterJsonModel FilterJsonSpec FilterJsonProofs FilterJsonProps.
From Coq Require String.
Import String.StringSyntax.
#[local] Delimit Scope string_scope with string.
#[local] Open Scope N_scope.

(** A text is accepted as a filter exactly if it is a JSON document whose value passes for that filter. *)
Theorem C08_accepts_exactly b f : filter_from_str b = Done (Some f) <-> exists v, document b v /\ passes v f.
Proof.
  setoid_rewrite <- json_exact. unfold filter_from_str, json_from_str. destruct (read_json b) as [[v r]|]; [|by split; [|intros (? & ? & _)]]. cbn [mbind option_bind].
  destruct (skip_ws r) as [|c l].
  - destruct (filter_of_json v) as [g|] eqn:E; simpl.
    + split; [intros [= ->]; exists v; split; [done|by apply passes_spec]|]. intros (v' & [= <-] & H%passes_spec). congruence.
    + split; [done|]. intros (v' & [= <-] & H%passes_spec). congruence.
  - split; [by destruct (filter_of_json v)|]. by intros (? & ? & _).
Qed.
Print Assumptions C08_accepts_exactly.
(** A list of filters: an array, every element passes for a filter, in order. *)
Section list.
Context (rd : bytes -> option (json * bytes)).
(** [read_filters] with another reader of values. *)
Fixpoint filters_with (fuel : nat) (first : bool) (b : bytes) : res (option (list afilter * bytes)) :=
  match fuel with
  | O => Done None
  | S n =>
      match skip_ws b with
      | [] => Done None
      | c :: r =>
          if is c 93 then Done (Some ([], r))
          else
            match (if first then Some (c :: r)
                   else if is c 44 then match skip_ws r with c' :: r' => if is c' 93 then None else Some (c' :: r') | [] => None end else None) with
            | None => Done None
            | Some s =>
                match rd s with
                | None => Done None
                | Some (v, r1) =>
                    f ← filter_of_json v;
                    o ← filters_with n false r1;
                    Done (match o with Some (fs, r2) => Some (f :: fs, r2) | None => None end)
                end
            end
      end
  end.
Lemma filters_with_items n first b fs r : filters_with n first b = Done (Some (fs, r)) <->
  exists vs, read_items rd n first b = Some (vs, r) /\ Forall2 (fun v f => filter_of_json v = Done f) vs fs.
Proof.
  revert first b fs r. induction n as [|n IH]; intros first b fs r; [split; [done|by intros (? & ? & _)]|]. cbn [filters_with read_items].
  destruct (skip_ws b) as [|c b1]; [split; [done|by intros (? & ? & _)]|]. destruct (is c 93).
  { split; [intros [= <- <-]; exists []; by split; [|constructor]|]. intros (vs & [= <- <-] & H). by apply Forall2_nil_inv_l in H as ->. }
  set (o := if first then Some (c :: b1) else _). destruct o as [s|]; [|split; [done|by intros (? & ? & _)]]. cbn [mbind option_bind].
  destruct (rd s) as [[v r1]|]; [|split; [done|by intros (? & ? & _)]]. cbn [mbind option_bind]. split.
  - destruct (filter_of_json v) as [f|] eqn:Ef; [|done]. simpl. destruct (filters_with n false r1) as [[[fs' r2]|]|] eqn:Er; [|done..]. simpl. intros [= <- <-].
    apply IH in Er as (vs & -> & Hvs). exists (v :: vs). split; [done|]. by constructor.
  - intros (vs & Hvs & Hf). apply bind_inv in Hvs as ([vs' r2] & Hr & [= <- <-]). apply Forall2_cons_inv_l in Hf as (f & fs' & Hf & Hfs & ->). rewrite Hf. simpl.
    assert (filters_with n false r1 = Done (Some (fs', r2))) as -> by (apply IH; eauto). done.
Qed.
Lemma filters_with_list b fs :
  match skip_ws b with
  | c :: r => if is c 91 then o ← filters_with (S (length r)) true r; Done (match o with Some (fs, r') => match skip_ws r' with [] => Some fs | _ => None end | None => None end) else Done None
  | [] => Done None
  end = Done (Some fs) <->
  exists vs r, (exists b1, skip_ws b = n2b 91 :: b1 /\ read_items rd (S (length b1)) true b1 = Some (vs, r)) /\ skip_ws r = [] /\ Forall2 (fun v f => filter_of_json v = Done f) vs fs.
Proof.
  split.
  - destruct (skip_ws b) as [|c b1]; [done|]. destruct (is c 91) eqn:E; [|done]. apply (is_eq c 91) in E as ->; [|done].
    destruct (filters_with _ true b1) as [[[fs' r]|]|] eqn:Er; [|done..]. simpl. destruct (skip_ws r) eqn:Es; [|done]. intros [= <-].
    apply filters_with_items in Er as (vs & Hvs & Hf). exists vs, r. split; [by exists b1|done].
  - intros (vs & r & (b1 & Hb & Hr) & Hs & Hf). rewrite Hb. change (is (n2b 91) 91) with true. cbv iota.
    assert (filters_with (S (length b1)) true b1 = Done (Some (fs, r))) as -> by (apply filters_with_items; by exists vs). simpl. by rewrite Hs.
Qed.
End list.
Lemma number_no_array b vs r : read_number b <> Some (JArr vs, r).
Proof.
  unfold read_number. destruct b as [|c b]; [done|]. destruct (is c 45); intros ([x r1] & _ & H)%bind_inv; apply bind_inv in H as ([fl r2] & _ & H); [done|].
  destruct fl; [done|]. by destruct (_ <? _).
Qed.
Lemma read_array d b vs r : read_value (S d) b = Some (JArr vs, r) <-> exists b1, skip_ws b = n2b 91 :: b1 /\ read_items (read_value d) (S (length b1)) true b1 = Some (vs, r).
Proof.
  split.
  - cbn [read_value]. destruct (skip_ws b) as [|c b1]; [done|]. intros H.
    destruct (is c 110); [by apply bind_inv in H as (? & _ & ?)|]. destruct (is c 116); [by apply bind_inv in H as (? & _ & ?)|]. destruct (is c 102); [by apply bind_inv in H as (? & _ & ?)|].
    destruct (is c 34); [by apply bind_inv in H as ([? ?] & _ & ?)|]. destruct (is c 91) eqn:E.
    + apply bind_inv in H as ([l r'] & H & [= <- <-]). exists b1. split; [f_equal; by apply is_eq|done].
    + destruct (is c 123); [by apply bind_inv in H as ([? ?] & _ & ?)|]. destruct (is c 45 || is_digit c); [|done]. by apply number_no_array in H.
  - intros (b1 & Hb & H). cbn [read_value]. rewrite Hb. change (is (n2b 91) 110) with false. change (is (n2b 91) 116) with false. change (is (n2b 91) 102) with false.
    change (is (n2b 91) 34) with false. change (is (n2b 91) 91) with true. cbv iota. eapply bind_some; [exact H|done].
Qed.
Theorem C08_accepts_list_exactly b fs : filters_from_str b = Done (Some fs) <-> exists vs, document b (JArr vs) /\ Forall2 passes vs fs.
Proof.
  transitivity (exists vs r, read_value 127 b = Some (JArr vs, r) /\ skip_ws r = [] /\ Forall2 (fun v f => filter_of_json v = Done f) vs fs).
  - setoid_rewrite (read_array 126). exact (filters_with_list (read_value 126) b fs).
  - assert (forall vs, Forall2 (fun v f => filter_of_json v = Done f) vs fs <-> Forall2 passes vs fs) as Hp.
    { intros vs. split; intros H; (eapply Forall2_impl; [exact H|]); intros; by apply passes_spec. }
    unfold document. setoid_rewrite <- read_value_exact. split.
    + intros (vs & r & H & Hs & Hf). exists vs. split; [by exists r|by apply Hp].
    + intros (vs & (r & H & Hs) & Hf). exists vs, r. split; [done|]. split; [done|by apply Hp].
Qed.
Print Assumptions C08_accepts_list_exactly.
(** C72: an error is only reported for a text that is no JSON document, and the program only ends on a text that begins with a JSON value that passes for
    no filter; so every other text is accepted.  Missing for the full statement: that the program never ends (C72_refuted). *)
Theorem C72_no_document_partial b :
  (filter_from_str b = Done None -> ~ exists v, document b v) /\
  (filter_from_str b = Panic -> exists w v t r, b = w ++ t ++ r /\ ws w /\ doc 127 v t /\ ~ exists f, passes v f).
Proof.
  unfold filter_from_str. setoid_rewrite <- json_exact. unfold json_from_str, read_json. destruct (read_value 127 b) as [[v r]|] eqn:Hv; [|split; [by intros _ (? & ?)|done]].
  cbn [mbind option_bind]. destruct (filter_of_json v) as [f|] eqn:Hf; simpl; split; try done.
  - destruct (skip_ws r); [done|]. by intros _ (? & ?).
  - intros _. apply read_value_sound in Hv as (w & t & Hw & -> & Ht). exists w, v, t, r. split_and!; try done. intros (f & Hp%passes_spec). congruence.
Qed.
Print Assumptions C72_no_document_partial.

(** A document with everything: an escape by code, a pair of codes, a float, a negative number, a key that occurs twice. *)
Definition ex_doc : bytes := txt "{ ""a\u00E9"": -0.5e+3, ""programId"": [ ], ""b"": ""\ud83d\uDE00"", ""programId"" : ""11111111111111111111111111111111"" } ".
Definition ex_doc_value : json :=
  JObj [(txt "a" ++ str [195; 169], JNum); (txt "b", JStr (str [240; 159; 152; 128])); (txt "programId", JStr (txt "11111111111111111111111111111111"))].
Example C08_example_document : document ex_doc ex_doc_value /\ passes ex_doc_value (AFilter [] (Some 0) None) /\ filter_from_str ex_doc = Done (Some (AFilter [] (Some 0) None)) /\
  (exists vs, document (txt "[{},{}]") (JArr vs) /\ Forall2 passes vs [AFilter [] None None; AFilter [] None None]).
Proof.
  split; [apply json_exact; by vm_compute|]. split; [apply passes_spec; by vm_compute|]. split; [by vm_compute|].
  exists [JObj []; JObj []]. split; [apply json_exact; by vm_compute|]. apply Forall2_cons; (split; [apply passes_spec; by vm_compute|]). apply Forall2_cons; split; [apply passes_spec; by vm_compute|by constructor].
Qed.
(** Texts that are no documents: leading zeros, text behind the value, a lone half of a pair, a trailing comma, a bare control character. *)
Example C72_example_no_document : Forall (fun b => filter_from_str b = Done None /\ ~ exists v, document b v)
  [txt "{""a"": 01}"; txt "{} {}"; txt """\ud83d"""; txt "[1,]"; [n2b 34; n2b 9; n2b 34]; []].
Proof.
  assert (forall b, filter_from_str b = Done None -> filter_from_str b = Done None /\ ~ exists v, document b v) as H by (intros b Hb; split; [done|by apply C72_no_document_partial]).
  repeat (apply Forall_cons; split; [apply H; by vm_compute|]). constructor.
Qed.
Example C72_example_panic : filter_from_str (txt "{""programId"":1}") = Panic.
Proof. by vm_compute. Qed.
