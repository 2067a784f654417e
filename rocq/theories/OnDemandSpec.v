(** Vocabulary for the theorems about on-demand loading. *)
From Verif Require Import Base DataModel FilterModel FilterSpec StoreModel DispatchModel OnDemandModel.

(** The call has subscribed the account (the program query) and has neither finished loading it nor given up. *)
Definition loads_acc (t : thr) (pk : pubkey) : Prop := exists c, t = ASave pk c \/ t = AClear pk c.
Definition loads_prog (t : thr) (p : pubkey) (cs : list cond) : Prop :=
  exists fl c, default [] fl = cs /\ (t = PAdd p fl c \/ t = PSave p fl c \/ t = PClear p fl c).
(** A history from a new on-demand storage over storage state [s] and filters [f] leads to [x]. *)
Definition leads {S} (E : ext) (I : option fstore -> iface S) (s : S) (f : fstore) (l : list (ev S)) (x : sys S) : Prop :=
  od_run E I (od_new s f) l = Some x.
(** The last event made the source subscribe. *)
Definition subscribes_acc {S} (x x' : sys S) (pk : pubkey) : Prop := exists ok, od_log x'.1 = od_log x.1 ++ [NAcc pk ok].
Definition subscribes_prog {S} (x x' : sys S) (p : pubkey) (cs : list cond) : Prop :=
  exists fl ok, default [] fl = cs /\ od_log x'.1 = od_log x.1 ++ [NProg p fl ok].
(** The load of an account (a program query) by some call fails in this event: its subscription or its snapshot is refused. *)
Definition fails_acc {S} (x : sys S) (e : ev S) (x' : sys S) (pk : pubkey) : Prop := exists n c,
  (e = EAdv n (ISub false) /\ x.2 !! n = Some (ALock pk c) /\ x'.2 !! n = Some (ADone (RErr ErrorSubscribingAccount))) \/
  (e = EAdv n (ISaved false) /\ x.2 !! n = Some (ASave pk c)).
Definition fails_prog {S} (x : sys S) (e : ev S) (x' : sys S) (p : pubkey) (cs : list cond) : Prop := exists n fl c, default [] fl = cs /\
  ((e = EAdv n (ISub false) /\ x.2 !! n = Some (PLock p fl c) /\ x'.2 !! n = Some (PDone (RErr ErrorSubscribingAccount))) \/
   (e = EAdv n (ISaved false) /\ x.2 !! n = Some (PSave p fl c))).
(** Every pattern in a request or an added filter is well-formed text. *)
Definition ev_decodable {S} (E : ext) (e : ev S) : Prop :=
  match e with EGpa p fl _ => decodable E (prog_filter p fl) | EFilter f => decodable E f | _ => True end.
(** A call that is not loading a program query and has not failed. *)
Definition calm (t : thr) : Prop := t <> TDead /\ (forall e, t <> PDone (RErr e)) /\ forall p cs, ~ loads_prog t p cs.
