(** Model of the server of [simulate_from_snapshot/src/main.rs] 28-170: one token storage filled from a snapshot archive and a stream of
    messages, and then asked over RPC (see RpcModel). *)
From Verif Require Import Base DataModel TokenUtilsModel TokenStoreModel AvecModel StreamModel.

(** The storage after the archive has been loaded (123-156, [load_archive]) and the messages [ms] have been consumed (44-116, [stream_run]).
    Simplification: in main.rs the two run concurrently on the same storage, here every message comes after the archive (see C67 for what goes
    wrong otherwise).  [None]: out of fuel. *)
Definition serve (fuel : nat) (E : ext) (X : lz4x) (dec : bytes -> option index_t) (ord : drain) (archive : list (option entry)) (ms : list gmsg) : option (res tstore) :=
  match load_archive fuel E dec ts_empty archive with
  | Some (Done ts) => Some (stream_run E X ord ts ms)
  | Some Panic => Some Panic
  | None => None
  end.
