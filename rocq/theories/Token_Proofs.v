(** Lemmas about tokens of resumable uploads. *)
From Coq Require Import List Bool ZArith Lia.
From Verif Require Import Str_Model Token_Model Token_Spec.
Import ListNotations.
Local Open Scope list_scope.
Local Open Scope Z_scope.

Lemma in_worker_gone : in_worker = Gone. Proof. vm_compute. reflexivity. Qed.
Lemma in_handler_500 : in_handler = Answered 500. Proof. vm_compute. reflexivity. Qed.

Lemma i64_small : forall z, - 2 ^ 63 <= z < 2 ^ 63 -> i64 z = z.
Proof. intros z H. unfold i64. rewrite Z.mod_small by lia. lia. Qed.

Lemma in_asked : forall (f : str * str -> bool) ws x, In x (map (fun w => Asked (fst w) (snd w)) (filter f ws)) ->
  exists s i, x = Asked s i /\ In (s, i) ws.
Proof.
  intros f ws x H. apply in_map_iff in H as ([s i] & <- & H). apply filter_In in H as [H _]. exists s, i. split; [reflexivity|exact H].
Qed.

Lemma in_firstn : forall {A} n (l : list A) x, In x (firstn n l) -> In x l.
Proof. intros A n l x H. rewrite <- (firstn_skipn n l). apply in_or_app. left. exact H. Qed.

Lemma flush_deeds : forall e k c ws x, In x (fst (flush e k c ws)) -> exists s i, x = Asked s i /\ In (s, i) ws.
Proof.
  intros e k c ws x H. unfold flush in H. destruct (ev_rs _ _ _); [|contradiction H].
  assert (G : In x (map (fun w => Asked (fst w) (snd w)) (filter (fun w => ev_addr e (fst w) (snd w)) (firstn (Z.to_nat (all_shards c)) ws)))).
  { destruct (existsb _ _); [exact H|]. destruct (forallb _ _); exact H. }
  apply in_asked in G as (s & i & -> & G). exists s, i. split; [reflexivity|]. exact (in_firstn _ _ _ G).
Qed.

Lemma blocks_deeds : forall e m k c ws x, In x (fst (blocks e k m c ws)) -> exists s i, x = Asked s i /\ In (s, i) ws.
Proof.
  intros e m. induction m as [|m IH]; intros k c ws x H; [contradiction H|]. cbn [blocks] in H.
  destruct (flush e k c ws) as [d r] eqn:E. pose proof (flush_deeds e k c ws x) as F. rewrite E in F.
  destruct r; try exact (F H). specialize (IH (S k) c ws x). destruct (blocks e (S k) m c ws) as [d' r].
  cbn [fst] in *. apply in_app_or in H as [H|H]; [exact (F H)|exact (IH H)].
Qed.

Lemma commit_deeds : forall e k rest c ws x, In x (fst (commit e k rest c ws)) -> exists s i, x = Asked s i /\ In (s, i) ws.
Proof.
  intros e k rest c ws x H. unfold commit in H.
  destruct (if rest then flush e k c ws else ([], FNil)) as [d r] eqn:E.
  assert (F : In x d -> exists s i, x = Asked s i /\ In (s, i) ws).
  { intros D. destruct rest; [|injection E as <- _; contradiction D]. apply (flush_deeds e k c ws). rewrite E. exact D. }
  destruct r; try exact (F H). cbn [fst] in H. apply in_app_or in H as [H|H]; [exact (F H)|exact (in_asked _ _ _ H)].
Qed.

Lemma after_deeds : forall r a b, fst (after r a b) = fst r.
Proof. intros [d []] a b; reflexivity. Qed.

Lemma current_deeds : forall e t c x, (exists d st, current_size e t c = CErr d st /\ In x d) \/ (exists d n, current_size e t c = CSize d n /\ In x d) ->
  exists s i, x = Asked s i /\ In (s, i) (combine (tk_servers t) (tk_ids t)).
Proof.
  intros e t c x H. unfold current_size in H. destruct (tk_servers t) as [|s ss], (tk_ids t) as [|i ii];
    try (destruct H as [(d & st & H & _)|(d & n & H & _)]; discriminate H).
  assert (G : x = Asked s i).
  { destruct (ev_addr e s i).
    - destruct (ev_head e s i); destruct H as [(d & st & H & D)|(d & n & H & D)]; try discriminate H; injection H as <- _;
        destruct D as [D|[]]; congruence.
    - destruct H as [(d & st & H & D)|(d & n & H & D)]; try discriminate H. injection H as <- _. contradiction D. }
  exists s, i. split; [exact G|left; reflexivity].
Qed.

(** The deeds of a request: asking the pieces of the token, saving what it names. *)
Lemma patch_deeds : forall e t first n x, In x (fst (patch e (Some t) first n)) ->
  (exists s i, x = Asked s i /\ In (s, i) (combine (tk_servers t) (tk_ids t))) \/
  x = Saved (tk_bucket t) (tk_name t) (tk_hash t) (tk_size t) (tk_servers t).
Proof.
  intros e t first n x H. unfold patch in H. destruct first as [first|]; [|contradiction H].
  unfold open_stream in H. destruct (_ <? _)%nat; [contradiction H|].
  destruct (tk_config t) as [c|]; [|contradiction H]. destruct (_ || _); [contradiction H|].
  pose proof (current_deeds e t c x) as C. set (ws := combine (tk_servers t) (tk_ids t)) in *.
  destruct (current_size e t c) as [|d st|d0 size]; [contradiction H| |].
  - left. apply C. left. exists d, st. split; [reflexivity|exact H].
  - assert (C0 : In x d0 -> exists s i, x = Asked s i /\ In (s, i) ws).
    { intros D. apply C. right. exists d0, size. split; [reflexivity|exact D]. }
    destruct (negb _); [left; exact (C0 H)|]. destruct (_ && _); [left; exact (C0 H)|].
    set (k := Z.to_nat _) in *. set (rest := negb _) in *. cbn [within fst] in H.
    apply in_app_or in H as [H|H]; [left; exact (C0 H)|].
    pose proof (blocks_deeds e k 0 c ws x) as B. destruct (blocks e 0 k c ws) as [d r]. cbn [fst] in B.
    destruct r; try (left; exact (B H)). cbn [within fst] in H. apply in_app_or in H as [H|H]; [left; exact (B H)|].
    pose proof (commit_deeds e k rest c ws x) as Cm.
    repeat (match type of H with context [if ?b then _ else _] => destruct b end;
      [first [contradiction H|rewrite after_deeds in H; left; exact (Cm H)]|]).
    cbn [within fst] in H. apply in_app_or in H as [[H|[]]|H]; [right; symmetry; exact H|].
    rewrite after_deeds in H. left; exact (Cm H).
Qed.

(** ** Well-made tokens *)

Lemma flush_safe : forall e t c k, tk_config t = Some c -> well_made e t ->
  exists d r, flush e k c (combine (tk_servers t) (tk_ids t)) = (d, r) /\ forall f, r <> FEnd f.
Proof.
  intros e t c k Hc (c' & Hc' & D & P & A & B & BS & Cap & R & L & Le & Ad).
  assert (c' = c) by congruence. subst c'. unfold flush. rewrite R.
  set (ws := combine (tk_servers t) (tk_ids t)) in *.
  assert (Lw : List.length ws = Z.to_nat (all_shards c)).
  { unfold ws. rewrite combine_length. unfold all_shards. rewrite i64_small by lia. lia. }
  rewrite <- Lw, firstn_all.
  assert (F : existsb (fatal e k ws) (seq 0 (List.length ws)) = false).
  { apply Bool.not_true_iff_false. intros X. apply existsb_exists in X as (i & Hi & X). apply in_seq in Hi.
    unfold fatal in X. destruct (nth_error ws i) as [[s d]|] eqn:E.
    - apply nth_error_In in E. rewrite (Ad s d E) in X. discriminate X.
    - apply nth_error_None in E. lia. }
  rewrite F. destruct (forallb _ ws); do 2 eexists; (split; [reflexivity|]; intros f C; discriminate C).
Qed.

Lemma blocks_safe : forall e t c m k, tk_config t = Some c -> well_made e t ->
  exists d r, blocks e k m c (combine (tk_servers t) (tk_ids t)) = (d, r) /\ forall f, r <> FEnd f.
Proof.
  intros e t c m. induction m as [|m IH]; intros k Hc W; cbn [blocks].
  - do 2 eexists. split; [reflexivity|]. intros f C. discriminate C.
  - destruct (flush_safe e t c k Hc W) as (d & r & -> & S1). destruct (IH (S k) Hc W) as (d' & r' & E & S2).
    destruct r; [rewrite E; do 2 eexists; split; [reflexivity|exact S2]| |contradiction (S1 f); reflexivity].
    do 2 eexists. split; [reflexivity|exact S1].
Qed.

Lemma commit_safe : forall e t c k rest, tk_config t = Some c -> well_made e t ->
  exists d r, commit e k rest c (combine (tk_servers t) (tk_ids t)) = (d, r) /\ forall f, r <> FEnd f.
Proof.
  intros e t c k rest Hc W. unfold commit. destruct (flush_safe e t c k Hc W) as (d & r & E & Sf).
  destruct rest; [rewrite E; destruct r|].
  - do 2 eexists. split; [reflexivity|]. destruct (forallb _ _); intros f C; discriminate C.
  - do 2 eexists. split; [reflexivity|exact Sf].
  - do 2 eexists. split; [reflexivity|exact Sf].
  - do 2 eexists. split; [reflexivity|]. destruct (forallb _ _); intros f C; discriminate C.
Qed.

Lemma after_safe : forall d r a b, (forall f, r <> FEnd f) -> exists st, snd (after (d, r) a b) = Answered st.
Proof. intros d r a b H. destruct r; [exists a|exists b|contradiction (H f)]; reflexivity. Qed.
