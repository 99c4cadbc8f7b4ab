From Verif Require Import Str_Model Meta_Model Meta_Spec Owner_Model Owner_Spec Owner_Proofs Admit_Model Admit_Spec Admit_Proofs Route_Model Route_Spec.
From stdpp Require Import gmap.
Local Open Scope list_scope.

Section Route.
Variable sort : sorter.
Hypothesis HS : is_sorter sort.

Lemma location_iff : forall crc kv table name id, tables_ok sort kv table ->
  (key_slot_location sort crc kv name = inl id <-> master_of crc kv name id).
Proof.
  intros crc kv table name id Ok. unfold key_slot_location, master_of. rewrite (to_table _ _ _ Ok).
  pose proof (identify_iff sort HS crc kv table name id Ok) as I. rewrite <- I.
  destruct (get_string_identify crc name table) as [x|]; split; congruence.
Qed.

Lemma location_none : forall crc kv table name, tables_ok sort kv table ->
  (forall id, ~ master_of crc kv name id) -> key_slot_location sort crc kv name = inr 500%Z.
Proof.
  intros crc kv table name Ok H. destruct (key_slot_location sort crc kv name) as [id|e] eqn:E.
  - destruct (H id). apply (location_iff crc kv table name id Ok). exact E.
  - unfold key_slot_location in E. rewrite (to_table _ _ _ Ok) in E. destruct (get_string_identify crc name table); congruence.
Qed.

Lemma addresses_iff : forall reg ids b, List.In b (addresses reg ids) <-> exists p, List.In p ids /\ address reg p = Some b.
Proof.
  intros reg ids b. induction ids as [|id ids IH]; cbn [addresses].
  - split; [intros []|intros (p & [] & _)].
  - destruct (address reg id) as [a|] eqn:E.
    + cbn [List.In]. rewrite IH. split.
      * intros [<-|(p & I & P)]; [exists id; split; [left; reflexivity|exact E]|exists p; split; [right; exact I|exact P]].
      * intros (p & [<-|I] & P); [left; congruence|right; exists p; auto].
    + rewrite IH. split; intros (p & I & P); [exists p; split; [right; exact I|exact P]|].
      destruct I as [<-|I]; [congruence|exists p; auto].
Qed.

Lemma candidates_iff : forall w id a b, address (w_reg w) id = Some a -> (List.In b (candidates w id a) <-> in_group w id b).
Proof.
  intros w id a b E. unfold candidates. rewrite addresses_iff. unfold in_group. split.
  - intros (p & I & P). apply List.in_app_or in I as [I|[<-|[]]]; [right; exists a, p; auto|left; exact P].
  - intros [P|(a' & p & E' & I & P)].
    + exists id. split; [apply List.in_or_app; right; left; reflexivity|exact P].
    + assert (a' = a) by congruence. subst a'. exists p. split; [apply List.in_or_app; left; exact I|exact P].
Qed.

Lemma select_in : forall intn sec w id a, lawful intn -> address (w_reg w) id = Some a ->
  exists b, select_meta intn sec w id = inl b /\ in_group w id b.
Proof.
  intros intn sec w id a L E. unfold select_meta. rewrite E.
  assert (N : List.In a (candidates w id a)) by (apply candidates_iff; [exact E|left; exact E]).
  destruct (candidates w id a) as [|x l] eqn:C; [destruct N|].
  eexists. split; [reflexivity|]. apply (candidates_iff w id a _ E). rewrite C. apply List.nth_In. apply L. cbn. lia.
Qed.

Lemma select_any : forall w id b sec, in_group w id b -> exists intn, lawful intn /\ select_meta intn sec w id = inl b.
Proof.
  intros w id b sec G. assert (exists a, address (w_reg w) id = Some a) as (a & E).
  { destruct G as [E|(a & p & E & _)]; eauto. }
  apply (candidates_iff w id a b E) in G. apply (List.In_nth _ _ []) in G as (n & L & N).
  exists (fun s m => if decide (s = sec /\ m = length (candidates w id a)) then n else 0). split.
  - intros s m P. case_decide as D; [destruct D as [_ ->]; exact L|lia].
  - unfold select_meta. rewrite E. destruct (candidates w id a) as [|x l] eqn:C; [cbn in L; lia|].
    rewrite decide_True by auto. f_equal. exact N.
Qed.

(** Servers of different seconds, chosen freely. *)
Lemma select_two : forall w id b c s t, s <> t -> in_group w id b -> in_group w id c ->
  exists intn, lawful intn /\ select_meta intn s w id = inl b /\ select_meta intn t w id = inl c.
Proof.
  intros w id b c s t N G H. destruct (select_any w id b s G) as (f & Lf & Ef). destruct (select_any w id c t H) as (g & Lg & Eg).
  exists (fun x m => if decide (x = s) then f x m else g x m). split; [|split].
  - intros x m P. case_decide; [apply Lf|apply Lg]; exact P.
  - rewrite <- Ef. unfold select_meta. destruct (address (w_reg w) id) as [a|]; [|reflexivity].
    destruct (candidates w id a) as [|y l]; [reflexivity|]. rewrite decide_True by reflexivity. reflexivity.
  - rewrite <- Eg. unfold select_meta. destruct (address (w_reg w) id) as [a|]; [|reflexivity].
    destruct (candidates w id a) as [|y l]; [reflexivity|]. rewrite decide_False by congruence. reflexivity.
Qed.

Lemma asked : forall {A : Type} crc w id table b name (f : db -> A), tables_ok sort (w_kv w) table -> name <> [] ->
  master_of crc (w_kv w) name id -> settled w id table -> in_group w id b ->
  exists s, w_at w b = Some s /\ ask crc w b name f = inl (f (r_db (sv_rep s))).
Proof.
  intros A crc w id table b name f Ok Ne (g & sl & I & Nm) St G. destruct (St b G) as (s & E & T & L). exists s. split; [exact E|].
  unfold ask. rewrite E, T. destruct (check_rpc_decision crc table (sv_id s) (sv_leader s) (fun i => master_address w i) name Ne) as [-> _].
  destruct (key_decision_spec sort HS crc (w_kv w) table (sv_id s) (sv_leader s) (fun i => master_address w i) name Ok) as [D _].
  rewrite (proj2 D); [reflexivity|]. exists g, id, sl. split; [exact I|]. split; [exact Nm|]. destruct L as [<-|<-]; auto.
Qed.

Lemma read_served : forall {A : Type} crc intn sec w id a table name (f : db -> A), lawful intn ->
  tables_ok sort (w_kv w) table -> name <> [] -> master_of crc (w_kv w) name id -> address (w_reg w) id = Some a -> settled w id table ->
  exists b s, read_address sort crc intn sec w name = inl b /\ in_group w id b /\ w_at w b = Some s /\
    api_read sort crc intn sec w name f = inl (f (r_db (sv_rep s))).
Proof.
  intros A crc intn sec w id a table name f L Ok Ne M E St. destruct (select_in intn sec w id a L E) as (b & Sb & G).
  destruct (asked crc w id table b name f Ok Ne M St G) as (s & Es & K). exists b, s.
  apply (location_iff crc _ table name id Ok) in M. unfold api_read, read_address. rewrite M, Sb. auto.
Qed.

Lemma master_unique : forall crc kv table name i j, tables_ok sort kv table ->
  master_of crc kv name i -> master_of crc kv name j -> i = j.
Proof.
  intros crc kv table name i j Ok M N. apply (location_iff crc kv table name i Ok) in M. apply (location_iff crc kv table name j Ok) in N. congruence.
Qed.

Lemma turned_away : forall {A : Type} crc w id table b s name (f : db -> A), tables_ok sort (w_kv w) table -> name <> [] ->
  master_of crc (w_kv w) name id -> w_at w b = Some s -> sv_table s = table -> sv_id s <> id -> sv_leader s <> id ->
  ask crc w b name f = inr 400%Z.
Proof.
  intros A crc w id table b s name f Ok Ne (g & sl & I & Nm) E T N1 N2. unfold ask. rewrite E, T.
  destruct (check_rpc_decision crc table (sv_id s) (sv_leader s) (fun i => master_address w i) name Ne) as [-> _].
  destruct (key_decision_spec sort HS crc (w_kv w) table (sv_id s) (sv_leader s) (fun i => master_address w i) name Ok) as [_ [D _]].
  rewrite (D g id sl I Nm); congruence.
Qed.

Lemma write_at : forall crc w id a s table name, tables_ok sort (w_kv w) table -> name <> [] ->
  master_of crc (w_kv w) name id -> address (w_reg w) id = Some a -> w_at w a = Some s -> sv_table s = table -> sv_id s = id ->
  api_write sort crc w name = if r_lead (sv_rep s) && r_normal (sv_rep s) then inl s else inr 500%Z.
Proof.
  intros crc w id a s table name Ok Ne M E Ea T Si. unfold api_write, write_address, master_address.
  rewrite (proj2 (location_iff crc _ table name id Ok) M), E, Ea, T.
  destruct (check_rpc_decision crc table (sv_id s) (sv_leader s) (fun i => match address (w_reg w) i with Some a => a | None => [] end) name Ne) as [_ [-> _]].
  destruct (key_decision_spec sort HS crc (w_kv w) table (sv_id s) (sv_leader s)
              (fun i => match address (w_reg w) i with Some a => a | None => [] end) name Ok) as [D _].
  rewrite (proj2 D); [reflexivity|]. destruct M as (g & sl & I & Nm). exists g, id, sl. auto.
Qed.

(** One second, one world: both halves of the answer are of one server. *)
Lemma both_one : forall crc intn sec w id a table (name : str) v, lawful intn ->
  tables_ok sort (w_kv w) table -> name <> [] -> master_of crc (w_kv w) name id -> address (w_reg w) id = Some a -> settled w id table ->
  exists b s, in_group w id b /\ w_at w b = Some s /\
    get_both sort crc intn sec sec w w name v =
    match d_meta (r_db (sv_rep s)) !! name, service_get_version name v (r_db (sv_rep s)) with
    | Some m, Some x => inl (m, x)
    | _, _ => inr 404%Z
    end.
Proof.
  intros crc intn sec w id a table name v L Ok Ne M E St.
  destruct (read_served crc intn sec w id a table name (look_meta name) L Ok Ne M E St) as (b & s & R1 & G & Es & K1).
  destruct (read_served crc intn sec w id a table name (service_get_version name v) L Ok Ne M E St) as (b' & s' & R2 & _ & Es' & K2).
  assert (b' = b) by congruence. subst b'. assert (s' = s) by congruence. subst s'.
  exists b, s. split; [exact G|]. split; [exact Es|]. unfold get_both. rewrite K1, K2. unfold look_meta.
  destruct (d_meta (r_db (sv_rep s)) !! name) as [m|]; [|reflexivity].
  destruct (service_get_version name v (r_db (sv_rep s))); reflexivity.
Qed.
End Route.
