(** Vocabulary for asking data servers over etcd. *)
From Coq Require Import List Bool Arith.
From Verif Require Import Seek_Model.
Import ListNotations.

(** The data server [s] stores the piece the question is about. *)
Definition stores (holds : list (list (nat * nat))) (s obj idx : nat) : Prop :=
  In (obj, idx) (nth s holds []).
Definition about (st : state) (holds : list (list (nat * nat))) (s : nat) (q : question) : Prop :=
  exists r, nth_error (st_requests st) (q_req q) = Some r /\ stores holds s (rq_obj r) (q_idx q).

(** Nothing goes wrong at server [s]: its watch stays open and its answers are put. *)
Definition steady (s : nat) (es : list event) : Prop :=
  ~ In (Stopped s) es /\ forall j, ~ In (Answer s j false) es.

(** All questions of request [r] are put, and it is not given up. *)
Definition patient (r : nat) (es : list event) : Prop :=
  ~ In (Ask r false) es /\ ~ In (Late r) es /\ ~ In (Broken r) es.

(** Nobody has anything left to do about questions and answers. *)
Definition quiet (st : state) : Prop :=
  (forall sv, In sv (st_servers st) -> sv_queue sv = [] /\ sv_busy sv = []) /\
  (forall q, In q (st_requests st) -> rq_asked q = rq_shards q /\ (rq_phase q = Open -> rq_events q = [])).

(** No piece of [obj] below [n] lies on two servers, or twice on one. *)
Definition apart (holds : list (list (nat * nat))) (obj n : nat) : Prop :=
  forall i s s', i < n -> stores holds s obj i -> stores holds s' obj i -> s = s'.

(** The answer of request [r]. *)
Definition outcome (st : state) (r : nat) : option bool :=
  match nth_error (st_requests st) r with
  | Some q => match rq_phase q with Open => None | Ended b | Gone b => Some b end
  | None => None
  end.

Definition deleted (st : state) (r : nat) : Prop :=
  exists q b, nth_error (st_requests st) r = Some q /\ rq_phase q = Gone b.
