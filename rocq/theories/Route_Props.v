From Verif Require Import Str_Model Meta_Model Meta_Spec Meta_Props Cache_Model Owner_Model Owner_Spec Owner_Proofs
  Admit_Model Admit_Spec Admit_Proofs Route_Model Route_Spec Route_Proofs.
From stdpp Require Import gmap.
Local Open Scope list_scope.

(** * C149: a metadata request reaches a server that answers for its name *)

(** An address is the registered one, peers are those the leader tells. *)
Theorem C149_address : forall reg id a, List.NoDup (map fst reg) ->
  (address reg id = Some a <-> List.In (id, a) reg).
Proof.
  intros reg id a. induction reg as [|[k b] r IH]; intros D; [split; [discriminate|intros []]|].
  cbn [map fst] in D. inversion D as [|? ? Nk D']; subst. cbn [address]. destruct (str_eq_dec k id) as [->|Ne].
  - split; [intros [= ->]; left; reflexivity|]. intros [[= ->]|H]; [reflexivity|]. exfalso. apply Nk.
    exact (List.in_map fst r (id, a) H).
  - rewrite (IH D'). split; [intros H; right; exact H|]. intros [[= E _]|H]; [contradiction|exact H].
Qed.
Print Assumptions C149_address.

Theorem C149_peers : forall w a p, List.In p (peers_at w a) <->
  exists s l, w_at w a = Some s /\ sv_peers s = Some l /\ List.In p l.
Proof.
  intros w a p. unfold peers_at. destruct (w_at w a) as [s|] eqn:E; [destruct (sv_peers s) as [l|] eqn:F|].
  - split; [intros H; exists s, l; auto|]. intros (s' & l' & [= <-] & G & H). rewrite F in G. injection G as <-. exact H.
  - split; [intros []|]. intros (s' & l' & [= <-] & G & _). congruence.
  - split; [intros []|]. intros (s' & l' & G & _). discriminate G.
Qed.
Print Assumptions C149_peers.

(** A read is sent to a server of the group that the tables name for the object, whatever the
    random generator gives. *)
Theorem C149_read : forall sort, is_sorter sort -> forall crc intn sec w table name id a, lawful intn ->
  tables_ok sort (w_kv w) table -> master_of crc (w_kv w) name id -> address (w_reg w) id = Some a ->
  exists b, read_address sort crc intn sec w name = inl b /\ in_group w id b.
Proof.
  intros sort HS crc intn sec w table name id a L Ok M E. destruct (select_in intn sec w id a L E) as (b & S1 & G).
  exists b. split; [|exact G]. unfold read_address. rewrite (proj2 (location_iff sort HS crc _ table name id Ok) M). exact S1.
Qed.
Print Assumptions C149_read.

(** Each server of the group is read from with some generator. *)
Theorem C149_any : forall sort, is_sorter sort -> forall crc sec w table name id b,
  tables_ok sort (w_kv w) table -> master_of crc (w_kv w) name id -> in_group w id b ->
  exists intn, lawful intn /\ read_address sort crc intn sec w name = inl b.
Proof.
  intros sort HS crc sec w table name id b Ok M G. destruct (select_any w id b sec G) as (f & L & E).
  exists f. split; [exact L|]. unfold read_address. rewrite (proj2 (location_iff sort HS crc _ table name id Ok) M). exact E.
Qed.
Print Assumptions C149_any.

(** A write is sent to the server that leads the group by the tables. *)
Theorem C149_write : forall sort, is_sorter sort -> forall crc w table name id a,
  tables_ok sort (w_kv w) table -> master_of crc (w_kv w) name id -> address (w_reg w) id = Some a ->
  write_address sort crc w name = inl a.
Proof.
  intros sort HS crc w table name id a Ok M E. unfold write_address, master_address.
  rewrite (proj2 (location_iff sort HS crc _ table name id Ok) M), E. reflexivity.
Qed.
Print Assumptions C149_write.

(** A name whose slot nobody has is an error and nothing is sent; so are tables that are not accepted. *)
Theorem C149_no_slot : forall sort, is_sorter sort -> forall crc intn sec w table name,
  tables_ok sort (w_kv w) table -> (forall id, ~ master_of crc (w_kv w) name id) ->
  read_address sort crc intn sec w name = inr 500%Z /\ write_address sort crc w name = inr 500%Z.
Proof.
  intros sort HS crc intn sec w table name Ok H. unfold read_address, write_address.
  rewrite (location_none sort HS crc _ table name Ok H). auto.
Qed.
Print Assumptions C149_no_slot.

Theorem C149_no_tables : forall sort crc intn sec w name, provider sort (w_kv w) = None ->
  read_address sort crc intn sec w name = inr 503%Z /\ write_address sort crc w name = inr 503%Z.
Proof. intros sort crc intn sec w name H. unfold read_address, write_address, key_slot_location. rewrite H. auto. Qed.
Print Assumptions C149_no_tables.

(** Where nobody listens, or at a server that turns the name away, there is an error. *)
Theorem C149_gone : forall (T : Type) sort crc intn sec w name a (f : db -> T), w_at w a = None ->
  (read_address sort crc intn sec w name = inl a -> api_read sort crc intn sec w name f = inr 500%Z) /\
  (write_address sort crc w name = inl a -> api_write sort crc w name = inr 500%Z).
Proof.
  intros T sort crc intn sec w name a f G. split; intros E; unfold api_read, api_write, ask; rewrite E, G; reflexivity.
Qed.
Print Assumptions C149_gone.

(** Wanted: a request for a name that a running group owns is answered.  Proved for the reads
    while all servers of the group have the tables of etcd and know the leader that etcd names,
    and for the writes while the server that etcd names leads.  Missing: the time of an
    election, and a leader that is not registered; see the refutations. *)
Theorem C149_served_partial : forall sort, is_sorter sort -> forall (T : Type) crc intn sec w id a table name (f : db -> T), lawful intn ->
  tables_ok sort (w_kv w) table -> name <> [] -> master_of crc (w_kv w) name id -> address (w_reg w) id = Some a -> settled w id table ->
  exists b s, in_group w id b /\ w_at w b = Some s /\ api_read sort crc intn sec w name f = inl (f (r_db (sv_rep s))).
Proof.
  intros sort HS T crc intn sec w id a table name f L Ok Ne M E St.
  destruct (read_served sort HS crc intn sec w id a table name f L Ok Ne M E St) as (b & s & _ & G & Es & K). eauto.
Qed.
Print Assumptions C149_served_partial.

(** Partial; the full statement is at [C149_served_partial]. *)
Theorem C149_write_served_partial : forall sort, is_sorter sort -> forall crc w id a s table name,
  tables_ok sort (w_kv w) table -> name <> [] -> master_of crc (w_kv w) name id -> address (w_reg w) id = Some a ->
  w_at w a = Some s -> sv_table s = table -> sv_id s = id ->
  api_write sort crc w name = if r_lead (sv_rep s) && r_normal (sv_rep s) then inl s else inr 500%Z.
Proof. exact write_at. Qed.
Print Assumptions C149_write_served_partial.

(** From the moment a group has elected another leader until etcd and the tables name it: the
    writes are refused by the old leader, and each server of the group but the old leader turns
    the reads away, with the status of a bad request. *)
Theorem C149_election_refuted : forall sort, is_sorter sort -> forall (T : Type) crc sec w id a old b s table name (f : db -> T),
  tables_ok sort (w_kv w) table -> name <> [] -> master_of crc (w_kv w) name id -> address (w_reg w) id = Some a ->
  w_at w a = Some old -> sv_table old = table -> sv_id old = id -> r_lead (sv_rep old) = false ->
  in_group w id b -> w_at w b = Some s -> sv_table s = table -> sv_id s <> id -> sv_leader s <> id ->
  api_write sort crc w name = inr 500%Z /\
  exists intn, lawful intn /\ api_read sort crc intn sec w name f = inr 400%Z.
Proof.
  intros sort HS T crc sec w id a old b s table name f Ok Ne M E Eo To Io Lo G Es Ts N1 N2. split.
  - rewrite (write_at sort HS crc w id a old table name Ok Ne M E Eo To Io), Lo. reflexivity.
  - destruct (C149_any sort HS crc sec w table name id b Ok M G) as (g & L & R). exists g. split; [exact L|].
    unfold api_read. rewrite R. exact (turned_away sort HS crc w id table b s name f Ok Ne M Es Ts N1 N2).
Qed.
Print Assumptions C149_election_refuted.

(** If the server etcd names is not registered (it stopped, say), all reads of its names are
    503, whichever other servers of its group run, and writes go to an empty address. *)
Theorem C149_unregistered_refuted : forall sort, is_sorter sort -> forall (T : Type) crc intn sec w table name id (f : db -> T),
  tables_ok sort (w_kv w) table -> master_of crc (w_kv w) name id -> address (w_reg w) id = None ->
  api_read sort crc intn sec w name f = inr 503%Z /\ write_address sort crc w name = inl [].
Proof.
  intros sort HS T crc intn sec w table name id f Ok M E. unfold api_read, read_address, write_address, select_meta, master_address.
  rewrite (proj2 (location_iff sort HS crc _ table name id Ok) M), E. auto.
Qed.
Print Assumptions C149_unregistered_refuted.

(** ** A group of two *)

Local Notation "'A'" := (s2l "A" : str) (only parsing).
Local Notation "'C'" := (s2l "C" : str) (only parsing).
Local Definition obj : str := s2l "obj".
Local Definition crc5 : str -> N := fun _ => 5%N.
Local Definition leading : replica := mk_replica db_empty 0 true true.
Local Definition following : replica := mk_replica db_empty 0 false true.

(** A leads by etcd; it tells C as its peer.  Both are registered. *)
Local Definition pair_of (la lc : str) (ra rc : replica) : world :=
  World ex_kv [(A, s2l "a:1"); (C, s2l "c:1")]
    (fun b => if str_eq_dec b (s2l "a:1") then Some (MServer A ex_table la (Some [C]) ra)
              else if str_eq_dec b (s2l "c:1") then Some (MServer C ex_table lc (Some [A]) rc) else None).

Local Lemma pair_master la lc ra rc name : master_of crc5 (w_kv (pair_of la lc ra rc)) name A.
Proof.
  exists (s2l "a"), [s2l "0-16384"]. split; [left; reflexivity|]. apply namedb_iff. vm_compute. reflexivity.
Qed.

Local Lemma pair_group la lc ra rc b : in_group (pair_of la lc ra rc) A b <-> b = s2l "a:1" \/ b = s2l "c:1".
Proof.
  rewrite <- (candidates_iff (pair_of la lc ra rc) A (s2l "a:1") b) by reflexivity.
  change (List.In b [s2l "c:1" : str; s2l "a:1" : str] <-> b = s2l "a:1" \/ b = s2l "c:1"). cbn [List.In]. intuition congruence.
Qed.

Local Lemma pair_settled ra rc : settled (pair_of A A ra rc) A ex_table.
Proof.
  intros b G. apply pair_group in G as [->| ->]; [exists (MServer A ex_table A (Some [C]) ra)|exists (MServer C ex_table A (Some [A]) rc)];
    (split; [reflexivity|]; split; [reflexivity|]); auto.
Qed.

Local Definition zero : Z -> nat -> nat := fun _ _ => 0.
Local Definition by_second : Z -> nat -> nat := fun sec n => if (sec =? 0)%Z then n - 1 else 0.
Local Lemma zero_lawful : lawful zero.
Proof. intros sec n P. exact P. Qed.
Local Lemma by_second_lawful : lawful by_second.
Proof. intros sec n P. unfold by_second. destruct (sec =? 0)%Z; lia. Qed.

Example C149_nonvacuous : let w := pair_of A A leading following in
  tables_ok isort (w_kv w) ex_table /\ master_of crc5 (w_kv w) obj A /\ address (w_reg w) A = Some (s2l "a:1") /\ lawful by_second /\
  settled w A ex_table /\
  read_address isort crc5 by_second 0 w obj = inl (s2l "a:1") /\ read_address isort crc5 by_second 1 w obj = inl (s2l "c:1") /\
  write_address isort crc5 w obj = inl (s2l "a:1") /\
  api_read isort crc5 by_second 1 w obj (look_meta obj) = inl None /\
  exists s, api_write isort crc5 w obj = inl s /\ sv_id s = A.
Proof.
  cbv zeta. split; [exact ex_ok|]. split; [apply pair_master|]. split; [reflexivity|]. split; [exact by_second_lawful|].
  split; [apply pair_settled|]. split; [vm_compute; reflexivity|]. split; [vm_compute; reflexivity|]. split; [vm_compute; reflexivity|].
  split; [vm_compute; reflexivity|]. eexists. split; [vm_compute; reflexivity|]. reflexivity.
Qed.

Example C149_no_slot_nonvacuous : exists w, tables_ok isort (w_kv w) [] /\ (forall id, ~ master_of crc5 (w_kv w) obj id) /\
  write_address isort crc5 w obj = inr 500%Z.
Proof.
  exists (World [(s2l "b", (s2l "B", []))] [] (fun _ => None)). split; [|split].
  - constructor.
    + apply List.NoDup_cons; [intros []|apply List.NoDup_nil].
    + apply List.NoDup_cons; [intros []|apply List.NoDup_nil].
    + vm_compute. reflexivity.
  - intros id (g & sl & [E|[]] & t & x & y & I & _). injection E as <- <- <-. destruct I.
  - vm_compute. reflexivity.
Qed.

Example C149_no_tables_nonvacuous : exists kv, provider isort kv = None.
Proof. exists [(s2l "a", (s2l "A", [s2l "x"]))]. vm_compute. reflexivity. Qed.

(** C leads by now, etcd names A: the hypotheses of the refutation, and what happens. *)
Example C149_election_nonvacuous : let w := pair_of C C following leading in
  master_of crc5 (w_kv w) obj A /\ in_group w A (s2l "c:1") /\ C <> A /\
  api_write isort crc5 w obj = inr 500%Z /\
  api_read isort crc5 by_second 1 w obj (look_meta obj) = inr 400%Z /\
  api_read isort crc5 by_second 0 w obj (look_meta obj) = inl None.
Proof.
  cbv zeta. split; [apply pair_master|]. split; [apply pair_group; right; reflexivity|]. split; [discriminate|].
  split; [vm_compute; reflexivity|]. split; vm_compute; reflexivity.
Qed.

Example C149_unregistered_nonvacuous : exists w, master_of crc5 (w_kv w) obj A /\ address (w_reg w) A = None /\ exists s, w_at w (s2l "c:1") = Some s /\
  sv_leader s = A /\ ask crc5 w (s2l "c:1") obj (look_meta obj) = inl None /\
  api_read isort crc5 zero 0 w obj (look_meta obj) = inr 503%Z.
Proof.
  exists (World ex_kv [(C, s2l "c:1")] (w_at (pair_of A A leading following))).
  split; [exact (pair_master A A leading following obj)|]. split; [reflexivity|].
  exists (MServer C ex_table A (Some [A]) following). split; [reflexivity|]. split; [reflexivity|]. split; vm_compute; reflexivity.
Qed.

(** * C150: a read sees the writes acknowledged before *)

(** What a read answers was true once: it is the answer after some number of entries of the log. *)
Theorem C150_past : forall sort, is_sorter sort -> forall (T : Type) crc intn sec w id a table name (f : db -> T) cl es, lawful intn ->
  tables_ok sort (w_kv w) table -> name <> [] -> master_of crc (w_kv w) name id -> address (w_reg w) id = Some a -> settled w id table ->
  data_of w id cl -> agreed cl es ->
  exists k, k <= length (cl_log cl) /\ api_read sort crc intn sec w name f = inl (f (apply_log db_empty (take k (cl_log cl)))).
Proof.
  intros sort HS T crc intn sec w id a table name f cl es L Ok Ne M E St D Ag.
  destruct (read_served sort HS crc intn sec w id a table name f L Ok Ne M E St) as (b & s & _ & G & Es & K).
  destruct (D b s G Es) as (i & Ei). destruct (ag_rep _ _ Ag i _ Ei) as [Le Q]. exists (r_done (sv_rep s)).
  split; [exact Le|]. rewrite K, Q. reflexivity.
Qed.
Print Assumptions C150_past.

(** Wanted: a read sees all that was acknowledged before.  Proved if all servers of the group
    have applied the log.  Missing: servers that lag; see the refutations. *)
Theorem C150_current_partial : forall sort, is_sorter sort -> forall (T : Type) crc intn sec w id a table name (f : db -> T) cl es, lawful intn ->
  tables_ok sort (w_kv w) table -> name <> [] -> master_of crc (w_kv w) name id -> address (w_reg w) id = Some a -> settled w id table ->
  data_of w id cl -> agreed cl es -> (forall i r, cl_reps cl !! i = Some r -> r_done r = length (cl_log cl)) ->
  api_read sort crc intn sec w name f = inl (f (apply_log db_empty (cl_log cl))).
Proof.
  intros sort HS T crc intn sec w id a table name f cl es L Ok Ne M E St D Ag Up.
  destruct (read_served sort HS crc intn sec w id a table name f L Ok Ne M E St) as (b & s & _ & G & Es & K).
  destruct (D b s G Es) as (i & Ei). destruct (ag_rep _ _ Ag i _ Ei) as [_ Q]. rewrite K, Q, (Up i _ Ei), take_ge by lia. reflexivity.
Qed.
Print Assumptions C150_current_partial.

(** Any server of the group may answer, however far it lags; and reads of two seconds may be
    answered by any two servers in any order. *)
Theorem C150_lagging_refuted : forall sort, is_sorter sort -> forall (T : Type) crc w id table name (f : db -> T) s t b c sb sc,
  tables_ok sort (w_kv w) table -> name <> [] -> master_of crc (w_kv w) name id -> settled w id table -> s <> t ->
  in_group w id b -> w_at w b = Some sb -> in_group w id c -> w_at w c = Some sc ->
  exists intn, lawful intn /\ api_read sort crc intn s w name f = inl (f (r_db (sv_rep sb))) /\
    api_read sort crc intn t w name f = inl (f (r_db (sv_rep sc))).
Proof.
  intros sort HS T crc w id table name f s t b c sb sc Ok Ne M St N Gb Eb Gc Ec.
  destruct (select_two w id b c s t N Gb Gc) as (g & L & S1 & S2). exists g. split; [exact L|].
  unfold api_read, read_address. rewrite (proj2 (location_iff sort HS crc _ table name id Ok) M), S1, S2.
  destruct (asked sort HS crc w id table b name f Ok Ne M St Gb) as (x & Ex & ->).
  destruct (asked sort HS crc w id table c name f Ok Ne M St Gc) as (y & Ey & ->).
  assert (x = sb) by congruence. assert (y = sc) by congruence. subst. auto.
Qed.
Print Assumptions C150_lagging_refuted.

(** ** An object saved at the leader *)
Local Definition save_md : request := RCall (Rpc (s2l "/proto.MetadataApi/SaveMetadata")) (AddMetadata obj (md 1)).
Local Definition save_v : request := RCall (Rpc (s2l "/proto.MetadataApi/SaveVersion")) (AddVersion obj (ver (s2l "h") (s2l "u") 1 0)).
Local Definition acts : list aact :=
  [Lead 0 true; Arrive 0 save_md; Serve 0 ACommitted; Deliver 1; Arrive 0 save_v; Serve 0 ACommitted].
Local Definition early : list aact := [Lead 0 true; Arrive 0 save_md; Serve 0 ACommitted].
Local Definition caught_up : list aact := acts ++ [Deliver 1].
Local Definition after (l : list aact) : cluster := fst (arun (cluster_start 2, []) l).
Local Definition rep (i : nat) (l : list aact) : replica := default leading (cl_reps (after l) !! i).
Local Definition world_after (l : list aact) : world := pair_of A A (rep 0 l) (rep 1 l).

Local Ltac grd := unfold guarded; apply (bool_decide_eq_true_1 (_ ∈ writable_methods)); vm_compute; reflexivity.
Local Lemma caught_up_ok : acts_ok (cluster_start 2) caught_up.
Proof.
  unfold caught_up, acts. cbn [app].
  repeat match goal with
    | |- acts_ok _ [] => exact I
    | |- acts_ok _ (_ :: _) => split
    | |- act_ok _ (Arrive _ save_md) => unfold act_ok, save_md; grd
    | |- act_ok _ (Arrive _ save_v) => unfold act_ok, save_v; grd
    | |- act_ok _ _ => exact I
    end.
Qed.

Local Lemma world_after_data l : (exists r, cl_reps (after l) !! 0 = Some r) -> (exists r, cl_reps (after l) !! 1 = Some r) ->
  data_of (world_after l) A (after l).
Proof.
  intros (r0 & E0) (r1 & E1) b s G E. apply pair_group in G as [->| ->].
  - exists 0. unfold world_after, pair_of in E. cbn [w_at] in E.
    change (Some (MServer A ex_table A (Some [C]) (rep 0 l)) = Some s) in E. injection E as <-. cbn [sv_rep].
    unfold rep. rewrite E0. reflexivity.
  - exists 1. change (Some (MServer C ex_table A (Some [A]) (rep 1 l)) = Some s) in E. injection E as <-. cbn [sv_rep].
    unfold rep. rewrite E1. reflexivity.
Qed.

(** The save was acknowledged; a read finds the object in one second and not in the next. *)
Theorem C150_backwards_refuted : exists acts cl es w intn,
  acts_ok (cluster_start 2) acts /\ arun (cluster_start 2, []) acts = (cl, es) /\ Acked 0 save_md ∈ es /\
  data_of w A cl /\ settled w A ex_table /\ lawful intn /\
  api_read isort crc5 intn 0 w obj (look_meta obj) = inl (Some (md 1)) /\
  api_read isort crc5 intn 1 w obj (look_meta obj) = inl None.
Proof.
  exists early, (after early), (snd (arun (cluster_start 2, []) early)), (world_after early), by_second.
  split; [|split; [|split; [|split; [|split; [|split; [|split]]]]]].
  - split; [exact I|]. split; [unfold act_ok, save_md; grd|]. split; exact I.
  - unfold after. destruct (arun (cluster_start 2, []) early); reflexivity.
  - vm_compute. left.
  - apply world_after_data; eexists; vm_compute; reflexivity.
  - apply pair_settled.
  - exact by_second_lawful.
  - vm_compute. reflexivity.
  - vm_compute. reflexivity.
Qed.
Print Assumptions C150_backwards_refuted.

Example C150_nonvacuous : let w := world_after caught_up in
  agreed (after caught_up) (snd (arun (cluster_start 2, []) caught_up)) /\ data_of w A (after caught_up) /\ settled w A ex_table /\
  Forall (fun r => r_done r = length (cl_log (after caught_up))) (cl_reps (after caught_up)) /\
  length (cl_log (after caught_up)) = 2 /\
  api_read isort crc5 zero 0 w obj (look_meta obj) = inl (Some (md 1)).
Proof.
  cbv zeta. split; [exact (run_agreed 2 caught_up caught_up_ok)|].
  split; [apply world_after_data; eexists; vm_compute; reflexivity|]. split; [apply pair_settled|].
  split; [vm_compute; repeat constructor|]. split; vm_compute; reflexivity.
Qed.

(** * C151: the metadata and the version of one answer belong together *)

(** Wanted: the two halves of an answer are of one state of the data.  Proved if both reads fall
    into one second and nothing happens in between: then both are of one server. *)
Theorem C151_together_partial : forall sort, is_sorter sort -> forall crc intn sec w id a table (name : str) v, lawful intn ->
  tables_ok sort (w_kv w) table -> name <> [] -> master_of crc (w_kv w) name id -> address (w_reg w) id = Some a -> settled w id table ->
  exists b s, in_group w id b /\ w_at w b = Some s /\
    get_both sort crc intn sec sec w w name v =
    match d_meta (r_db (sv_rep s)) !! name, service_get_version name v (r_db (sv_rep s)) with
    | Some m, Some x => inl (m, x)
    | _, _ => inr 404%Z
    end.
Proof. exact both_one. Qed.
Print Assumptions C151_together_partial.

(** All the reads of one name in one second are of one server. *)
Theorem C151_one_second : forall sort (T U : Type) crc intn sec w name (f : db -> T) (g : db -> U) x,
  api_read sort crc intn sec w name f = inl x ->
  exists s, x = f (r_db (sv_rep s)) /\ api_read sort crc intn sec w name g = inl (g (r_db (sv_rep s))).
Proof.
  intros sort T U crc intn sec w name f g x H. unfold api_read in *. destruct (read_address sort crc intn sec w name) as [a|e]; [|discriminate].
  unfold ask in *. destruct (w_at w a) as [s|]; [|discriminate].
  destruct (check_rpc crc (sv_table s) (sv_id s) (sv_leader s) (fun id => master_address w id) (RMetaReq name)); try discriminate.
  exists s. injection H as <-. auto.
Qed.
Print Assumptions C151_one_second.

(** The object and its version were saved and acknowledged; the first read finds the object, the
    second, a second later, goes to a server that does not have the version yet: the answer is
    that there is nothing. *)
Theorem C151_split_refuted : exists acts cl es w intn,
  acts_ok (cluster_start 2) acts /\ arun (cluster_start 2, []) acts = (cl, es) /\ Acked 0 save_md ∈ es /\ Acked 0 save_v ∈ es /\
  data_of w A cl /\ settled w A ex_table /\ lawful intn /\
  (exists m x, get_both isort crc5 intn 0 0 w w obj 1 = inl (m, x)) /\
  get_both isort crc5 intn 0 1 w w obj 1 = inr 404%Z.
Proof.
  exists acts, (after acts), (snd (arun (cluster_start 2, []) acts)), (world_after acts), by_second.
  split; [|split; [|split; [|split; [|split; [|split; [|split; [|split]]]]]]].
  - unfold acts. split; [exact I|]. split; [unfold act_ok, save_md; grd|]. split; [exact I|]. split; [exact I|].
    split; [unfold act_ok, save_v; grd|]. split; exact I.
  - unfold after. destruct (arun (cluster_start 2, []) acts); reflexivity.
  - vm_compute. left.
  - vm_compute. right. left.
  - apply world_after_data; eexists; vm_compute; reflexivity.
  - apply pair_settled.
  - exact by_second_lawful.
  - eexists. eexists. vm_compute. reflexivity.
  - vm_compute. reflexivity.
Qed.
Print Assumptions C151_split_refuted.

Example C151_nonvacuous : let w := world_after caught_up in
  lawful zero /\ tables_ok isort (w_kv w) ex_table /\ master_of crc5 (w_kv w) obj A /\ settled w A ex_table /\
  exists m x, get_both isort crc5 zero 0 0 w w obj 1 = inl (m, x).
Proof.
  cbv zeta. split; [exact zero_lawful|]. split; [exact ex_ok|]. split; [apply pair_master|]. split; [apply pair_settled|].
  eexists. eexists. vm_compute. reflexivity.
Qed.
