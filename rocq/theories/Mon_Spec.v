(** What the series of measurements should be. *)
From Verif Require Import Str_Model Meta_Model Registry_Model Mon_Model.
From stdpp Require Import gmap.
Local Open Scope list_scope.

(** The last [n] elements. *)
Definition last_n {A} (n : nat) (l : list A) : list A := drop (length l - n) l.

(** The reports among values. *)
Definition reports (dec : str -> record) (vs : list str) : list (Z * option N) :=
  omap (fun v => match dec v with Report c u a => Some (c, mem_percent u a) | _ => None end) vs.

(** What should be shown for a server whose reports were the values [vs]. *)
Definition shown (dec : str -> record) (vs : list str) : tline :=
  mk_tline (last_n 59 (map fst (reports dec vs))) (last_n 59 (map snd (reports dec vs))).

(** What is kept for a server. *)
Definition kept (db : stats) (serv id : str) : tline := default tline_new (db !! serv ≫= fun mp => mp !! id).

(** The values written under a key by the events from [i] to [j]. *)
Definition puts (k : str) (i j : nat) (log : list event) : list str :=
  omap (fun e => match e with EPut k' v => if str_eqb k' k then Some v else None | EDel _ => None end) (take (j - i) (drop i log)).

(** What etcd held under a key at event [f], and what was written there from [w] to [i]. *)
Definition values (k : str) (f w i : nat) (log : list event) : list str :=
  match etcd_at (take f log) !! k with Some v => [v] | None => [] end ++ puts k w i log.

(** Of the keys below the prefix only this one ends with its id. *)
Definition alone (p k : str) (log : list event) : Prop :=
  forall e, e ∈ log -> prefixb p (event_key e) = true -> stat_id (event_key e) = stat_id k -> event_key e = k.
