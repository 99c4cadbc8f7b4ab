(** Words for the theorems about tokens of resumable uploads. *)
From Coq Require Import List Bool ZArith.
From Verif Require Import Str_Model Token_Model.
Import ListNotations.
Local Open Scope list_scope.
Local Open Scope Z_scope.

(** A request that is answered. *)
Definition comes_to_an_end (r : list deed * fate) : Prop := exists st, snd r = Answered st.

(** The versions a request saved. *)
Definition saves (r : list deed * fate) (bucket name hash : str) (size : Z) (servers : list str) : Prop :=
  In (Saved bucket name hash size servers) (fst r).

(** The servers a request asked, and for what. *)
Definition asks (r : list deed * fate) (server id : str) : Prop := In (Asked server id) (fst r).

(** The tokens an upload can have: pieces for all shards, blocks that are not empty, addresses that are some. *)
Definition well_made (e : env) (t : token) : Prop :=
  exists c, tk_config t = Some c /\ 0 < rc_data c /\ 0 <= rc_parity c /\ rc_data c + rc_parity c < 2 ^ 63 /\
    0 < rc_block c /\ rc_block c * rc_data c < 2 ^ 63 /\ rc_block c * rc_data c <= ev_cap e /\
    ev_rs e (rc_data c) (rc_parity c) = true /\
    Z.of_nat (List.length (tk_ids t)) = rc_data c + rc_parity c /\
    (List.length (tk_ids t) <= List.length (tk_servers t))%nat /\
    forall s i, In (s, i) (combine (tk_servers t) (tk_ids t)) -> ev_addr e s i = true.
