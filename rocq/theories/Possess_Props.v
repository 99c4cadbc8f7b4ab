From Verif Require Import Str_Model Meta_Model Meta_Spec Api_Model Client_Model Client_Spec Possess_Spec Possess_Proofs.
From stdpp Require Import gmap.
Local Open Scope list_scope.
Local Notation length := List.length.

(** * C185: a client gets a version only of content that it sent *)

(** Whatever the data servers hold was sent in full by some request announcing that name,
    and with the checksum on a [PUT] that stored it announced its digest. *)
Theorem C185_stored : forall sha cf acts h s, let w := crun sha cf world_start acts in
  w_data w !! h = Some s ->
  exists t l, t ∈ w_threads w /\ t_layout t = Some l /\ h = u_hash sha (t_upload t) l /\
    s_content s = firstn (u_size (t_upload t)) (u_sent (t_upload t)) /\ sent_all (t_upload t) /\
    (cf_checksum cf = true -> t_resumable t = false -> told_truth sha (t_upload t)).
Proof. intros sha cf acts h s w. apply (run_ok sha cf acts). Qed.
Print Assumptions C185_stored.

(** Wanted: every request that is answered with a version sent content of the size and the
    digest announced.  With the checksum on it holds for each [PUT] smaller than the size
    from which the API server looks for the object first ([DistinctSize]).  Missing:
    larger ones and resumable uploads, which need not send anything, see below. *)
Theorem C185_small_partial : forall sha cf acts t n, cf_checksum cf = true ->
  t ∈ w_threads (crun sha cf world_start acts) -> t_resumable t = false -> t_answered t = Some n ->
  (u_size (t_upload t) < cf_distinct cf)%nat ->
  sent_all (t_upload t) /\ told_truth sha (t_upload t).
Proof.
  intros sha cf acts t n Hc Ht Hr Ha Hs. destruct (run_ok sha cf acts) as [H _].
  rewrite List.Forall_forall in H. specialize (H t (proj1 (elem_of_list_In _ _) Ht)). destruct H as [Hb H].
  destruct t as [u|u l|u l|u l|u l [r|]|u|u l|u l loc|u l loc|u l loc|u l r|u l r]; simpl in *; try discriminate.
  destruct (accepted_sent sha cf u Hb (H Hc Hs)) as [A B]. split; [exact A|exact (B Hc)].
Qed.
Print Assumptions C185_small_partial.

(** A stand-in for SHA-256 with the right length, for the examples. *)
Local Definition toy_sha (x : str) : str :=
  firstn 64 (print_N (fold_left (fun h c => (h * 257 + N_of_ascii c) mod (2 ^ 127 - 1))%N x 7%N) ++ repeat "x"%char 64).
Local Definition toy_comp (x : str) : str := "Z"%char :: x.
Local Definition toy_decomp (x : str) : str := tail x.
Local Definition toy_other (x : str) (_ : Z) : str := x.
Local Definition get' := get_object toy_comp toy_decomp toy_other.

Local Definition yes : Client_Model.choice := mk_choice true false [] [].
Local Definition mine : str := s2l "mine"%string.
Local Definition theirs : str := s2l "theirs"%string.
Local Definition hello : str := s2l "hello"%string.
Local Definition bkt (name : str) : bucket := mk_bucket true false false 0 0 0 10 1 1 name [].
Local Definition cfg (checksum : bool) (distinct : nat) : config := mk_config checksum distinct (mk_defaults 4 2 3).
Local Definition steps (k : nat) (n : nat) : list cact := repeat (CStep k yes) n.

(** The owner puts "hello" in the bucket "theirs"; the other request announces the same
    digest and size for the bucket "mine" and sends [body]. *)
Local Definition owner : upload :=
  mk_upload theirs (s2l "secret"%string) (toy_sha hello) 5 (mk_layout ec_rs 0 0 false) hello (s2l "u0"%string) 1.
Local Definition other (body : str) : upload :=
  mk_upload mine (s2l "copy"%string) (toy_sha hello) 5 (mk_layout ec_rs 0 0 false) body (s2l "u1"%string) 1.
Local Definition before : list cact :=
  [COther (CreateBucket (bkt theirs)); COther (CreateBucket (bkt mine)); CPut owner] ++ steps 0 4.

Example C185_stored_nonvacuous : let w := crun toy_sha (cfg true 1) world_start before in
  exists h s, w_data w !! h = Some s /\ s_content s = hello.
Proof.
  exists (u_hash toy_sha owner (mk_layout ec_rs 4 2 false)), (mk_stored hello false).
  split; [vm_compute; reflexivity|reflexivity].
Qed.

Example C185_small_nonvacuous :
  let w := crun toy_sha (cfg true 100) world_start (before ++ CPut (other hello) :: steps 1 4) in
  (exists t, w_threads w !! 1%nat = Some t /\ t_resumable t = false /\ t_answered t = Some 1%Z /\
     (u_size (t_upload t) < 100)%nat /\ t_upload t = other hello) /\
  (* with nothing sent, or with something else, no version is made *)
  match w_threads (crun toy_sha (cfg true 100) world_start (before ++ CPut (other []) :: steps 1 4)) !! 1%nat with
  | Some t => t_answered t = None | None => False end /\
  match w_threads (crun toy_sha (cfg true 100) world_start (before ++ CPut (other (s2l "wrong"%string)) :: steps 1 4)) !! 1%nat with
  | Some t => t_answered t = None | None => False end.
Proof.
  cbv zeta. split; [|split; vm_compute; reflexivity].
  eexists. split; [vm_compute; reflexivity|]. split; [reflexivity|]. split; [reflexivity|].
  split; [vm_compute; lia|vm_compute; reflexivity].
Qed.

(** From [DistinctSize] on a [PUT] that knows the digest and the size of an object is
    given a version of it, in a bucket of its own choice, without having sent any of it,
    even with the checksum on: the object is found and the body never looked at
    (object_service.go 152-157). *)
Theorem C185_refuted : exists sha cf acts t u, cf_checksum cf = true /\ (forall x, length (sha x) = 64%nat) /\
  let w := crun sha cf world_start acts in
  t ∈ w_threads w /\ t_resumable t = false /\ t_answered t = Some 1%Z /\
  u_sent (t_upload t) = [] /\ (0 < u_size (t_upload t))%nat /\
  CPut u ∈ acts /\ u_bucket u <> u_bucket (t_upload t) /\ u_sent u <> [] /\
  get_object toy_comp toy_decomp toy_other w (u_bucket (t_upload t)) (u_name (t_upload t)) 1 = Some (u_sent u).
Proof.
  exists toy_sha, (cfg true 1), (before ++ CPut (other []) :: steps 1 3), (PDone (other []) (mk_layout ec_rs 4 2 false) (Some 1%Z)), owner.
  split; [reflexivity|]. split.
  { intros x. unfold toy_sha. rewrite firstn_length, app_length, repeat_length. lia. }
  cbv zeta. split; [apply (elem_of_list_lookup_2 _ 1%nat); vm_compute; reflexivity|].
  repeat split; try reflexivity; try discriminate.
  all: try (simpl; lia). do 2 right. left.
Qed.
Print Assumptions C185_refuted.

(** The same for a resumable upload without the checksum: [POST] finds the object and
    answers with a version at once (big_api.go 67-78). *)
Theorem C185_resumable_refuted : exists sha cf acts t u, (forall x, length (sha x) = 64%nat) /\
  let w := crun sha cf world_start acts in
  t ∈ w_threads w /\ t_resumable t = true /\ t_answered t = Some 1%Z /\
  u_sent (t_upload t) = [] /\ (0 < u_size (t_upload t))%nat /\
  CPut u ∈ acts /\ u_bucket u <> u_bucket (t_upload t) /\ u_sent u <> [] /\
  get_object toy_comp toy_decomp toy_other w (u_bucket (t_upload t)) (u_name (t_upload t)) 1 = Some (u_sent u).
Proof.
  exists toy_sha, (cfg false 100), (before ++ CBig (other []) :: steps 1 4), (BDone (other []) (mk_layout ec_rs 4 2 false) (Some 1%Z)), owner.
  split.
  { intros x. unfold toy_sha. rewrite firstn_length, app_length, repeat_length. lia. }
  cbv zeta. split; [apply (elem_of_list_lookup_2 _ 1%nat); vm_compute; reflexivity|].
  repeat split; try reflexivity; try discriminate.
  all: try (simpl; lia). do 2 right. left.
Qed.
Print Assumptions C185_resumable_refuted.
