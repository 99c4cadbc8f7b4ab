(** Vocabulary of the API server properties. *)
From Coq Require Import List Arith ZArith Ascii Bool.
From Verif Require Import Str_Model Api_Model.
Import ListNotations.
Local Open Scope nat_scope.

(** The path begins with a white-listed text. *)
Definition white_listed (white : list str) (path : str) : Prop :=
  exists p rest, In p white /\ path = p ++ rest.

(** The validator accepted the request. *)
Definition accepts (o : outcome) : Prop := oc_ok o = true /\ oc_err o = None.

(** A data server: its address and the file names it stores. *)
Record dserver := mk_dserver { ds_ip : str; ds_has : str -> bool }.

(** Name of the file of shard [i] of content [hash]. *)
Definition shard_file (hash : str) (i : nat) : str := hash ++ "."%char :: print_N (N.of_nat i).

(** [ip] is the address of a server storing shard [i] of [hash]. *)
Definition at_server (svs : list dserver) (hash : str) (ip : str) (i : nat) : Prop :=
  exists s, In s svs /\ ds_ip s = ip /\ ds_has s (shard_file hash i) = true.

(** Every text received is the answer of one of the servers to one of the questions
    asked for [hash] under [key]. *)
Definition answers (evs : list lev) : list str :=
  List.concat (map (fun e => match e with LBatch raws => raws | _ => [] end) evs).
Definition answered (svs : list dserver) (hash key : str) (shards : nat) (evs : list lev) : Prop :=
  forall raw, In raw (answers evs) -> exists s i, In s svs /\ i < shards /\
    locate_answer (ds_has s) (ds_ip s) (locate_ask hash i key) = Some (key, raw).

(** Texts without separators: hashes are hexadecimal, keys are UUIDs, addresses are
    host:port. *)
Definition plain (hash key : str) (svs : list dserver) : Prop :=
  ~ In "."%char hash /\ ~ In "#"%char hash /\ ~ In "#"%char key /\
  forall s, In s svs -> ~ In "#"%char (ds_ip s) /\ ds_ip s <> [].

(** Same content digest and same storage layout; the shard counts do not matter for
    replicated content. *)
Definition same_storage (d1 d2 : str) (ss1 ds1 ps1 ss2 ds2 ps2 : Z) (c1 c2 : bool) : Prop :=
  d1 = d2 /\ ss1 = ss2 /\ c1 = c2 /\ (ss1 = multi_rep \/ (ds1 = ds2 /\ ps1 = ps2)).
