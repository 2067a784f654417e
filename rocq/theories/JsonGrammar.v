(** The whole grammar of JSON text (RFC 8259), with the values as [serde_json] gives them: any number, keys that occur twice, and a
    bound on how deeply arrays and objects are nested.  Independent of the reader; characters and white space are those of [JsonSpec]. *)
From Verif Require Import Base DataModel JsonModel AvecModel AvecSpec JsonSpec.

(** A fraction and an exponent, each possibly absent. *)
Definition digits (x : bytes) : Prop := x <> [] /\ Forall (fun c => 48 <= b2n c <= 57) x.
Inductive fraction : bytes -> Prop :=
| fr_none : fraction []
| fr_some x : digits x -> fraction (str [46] ++ x).
Inductive exponent : bytes -> Prop :=
| ex_none : exponent []
| ex_some e s x : e = 69 \/ e = 101 -> s = [] \/ s = str [43] \/ s = str [45] -> digits x -> exponent (str [e] ++ s ++ x).
(** Of keys that occur more than once, the last entry counts. *)
Inductive last_wins : list (bytes * json) -> list (bytes * json) -> Prop :=
| lw_nil : last_wins [] []
| lw_again k v l l' : k ∈ l.*1 -> last_wins l l' -> last_wins ((k, v) :: l) l'
| lw_keep k v l l' : k ∉ l.*1 -> last_wins l l' -> last_wins ((k, v) :: l) ((k, v) :: l').

(** [doc d v t]: [t] is a text of the value [v], with at most [d] arrays and objects inside each other. *)
Inductive doc : nat -> json -> bytes -> Prop :=
| doc_null d : doc d JNull (str [110; 117; 108; 108])
| doc_true d : doc d (JBool true) (str [116; 114; 117; 101])
| doc_false d : doc d (JBool false) (str [102; 97; 108; 115; 101])
| doc_nat d n t : prints t n -> n < 2 ^ 64 -> doc d (JNat n) t
| doc_num d n s i f e : s = [] \/ s = str [45] -> prints i n -> fraction f -> exponent e -> s <> [] \/ f <> [] \/ e <> [] \/ 2 ^ 64 <= n -> doc d JNum (s ++ i ++ f ++ e)
| doc_str d s t : str_text s t -> doc d (JStr s) t
| doc_arr0 d w : ws w -> doc (S d) (JArr []) (str [91] ++ w ++ str [93])
| doc_arr d l t : items_doc d l t -> doc (S d) (JArr l) (str [91] ++ t ++ str [93])
| doc_obj0 d w : ws w -> doc (S d) (JObj []) (str [123] ++ w ++ str [125])
| doc_obj d l l' t : entries_doc d l t -> last_wins l l' -> doc (S d) (JObj l') (str [123] ++ t ++ str [125])
with items_doc : nat -> list json -> bytes -> Prop :=
| items_one d v t w w' : doc d v t -> ws w -> ws w' -> items_doc d [v] (w ++ t ++ w')
| items_more d v t w w' l t' : doc d v t -> ws w -> ws w' -> items_doc d l t' -> items_doc d (v :: l) ((w ++ t ++ w') ++ str [44] ++ t')
with entries_doc : nat -> list (bytes * json) -> bytes -> Prop :=
| entries_one d k v tk t w1 w2 w3 w4 : str_text k tk -> doc d v t -> ws w1 -> ws w2 -> ws w3 -> ws w4 ->
    entries_doc d [(k, v)] (w1 ++ tk ++ w2 ++ str [58] ++ w3 ++ t ++ w4)
| entries_more d k v tk t w1 w2 w3 w4 l t' : str_text k tk -> doc d v t -> ws w1 -> ws w2 -> ws w3 -> ws w4 -> entries_doc d l t' ->
    entries_doc d ((k, v) :: l) ((w1 ++ tk ++ w2 ++ str [58] ++ w3 ++ t ++ w4) ++ str [44] ++ t').
Scheme doc_mind := Induction for doc Sort Prop
  with items_doc_mind := Induction for items_doc Sort Prop
  with entries_doc_mind := Induction for entries_doc Sort Prop.
Combined Scheme doc_ind3 from doc_mind, items_doc_mind, entries_doc_mind.
(** A whole text: a value with white space around it, nested at most 127 deep. *)
Definition document (b : bytes) (v : json) : Prop := exists w t w', b = w ++ t ++ w' /\ ws w /\ ws w' /\ doc 127 v t.
