(* Theorems about the MessagePack bytes of records. *)
From Coq Require Import List Ascii String NArith ZArith Bool Lia Permutation.
From Verif Require Import Str_Model Pack_Model Pack_Spec Pack_Proofs.
From Verif Require Codec_Model Codec_Props.
Import ListNotations.
Local Open Scope list_scope.
Local Open Scope N_scope.

(* === C169: a record written and read back is the same record === *)

(* Whatever record it is read into, and whatever follows: `extra`. *)
Theorem C169_extra : forall z old rest, extra_ok z ->
  snd (unmarshal extra_field old (marshal_extra z ++ rest)) = Some (z, rest).
Proof.
  intros z old rest O. apply reads_extra. exists (extra_value z), (marshal_extra z).
  split; [reflexivity|]. split; [apply extra_packs; exact O|apply extra_back; exact O].
Qed.
Print Assumptions C169_extra.

(* Whatever record it is read into, and whatever follows: `metadata`. *)
Theorem C169_metadata : forall z old rest, metadata_ok z ->
  snd (unmarshal metadata_field old (marshal_metadata z ++ rest)) = Some (z, rest).
Proof.
  intros z old rest O. apply reads_metadata. exists (metadata_value z), (marshal_metadata z).
  split; [reflexivity|]. split; [apply metadata_packs; exact O|apply metadata_back; exact O].
Qed.
Print Assumptions C169_metadata.

(* Whatever record it is read into, and whatever follows: `version`. *)
Theorem C169_version : forall z old rest, version_ok z ->
  snd (unmarshal version_field old (marshal_version z ++ rest)) = Some (z, rest).
Proof.
  intros z old rest O. apply reads_version. exists (version_value z), (marshal_version z).
  split; [reflexivity|]. split; [apply version_packs; exact O|apply version_back; exact O].
Qed.
Print Assumptions C169_version.

(* Whatever record it is read into, and whatever follows: `bucket`. *)
Theorem C169_bucket : forall z old rest, bucket_ok z ->
  snd (unmarshal bucket_field old (marshal_bucket z ++ rest)) = Some (z, rest).
Proof.
  intros z old rest O. apply reads_bucket. exists (bucket_value z), (marshal_bucket z).
  split; [reflexivity|]. split; [apply bucket_packs; exact O|apply bucket_back; exact O].
Qed.
Print Assumptions C169_bucket.

(* Whatever record it is read into, and whatever follows: `raft_data`. *)
Theorem C169_raft_data : forall z old rest, raft_data_ok z ->
  snd (unmarshal raft_data_field old (marshal_raft_data z ++ rest)) = Some (z, rest).
Proof.
  intros z old rest O. apply reads_raft_data. exists (raft_data_value z), (marshal_raft_data z).
  split; [reflexivity|]. split; [apply raft_data_packs; exact O|apply raft_data_back; exact O].
Qed.
Print Assumptions C169_raft_data.

(* Whatever record it is read into, and whatever follows: `slot_info`. *)
Theorem C169_slot_info : forall z old rest, slot_info_ok z ->
  snd (unmarshal slot_info_field old (marshal_slot_info z ++ rest)) = Some (z, rest).
Proof.
  intros z old rest O. apply reads_slot_info. exists (slot_info_value z), (marshal_slot_info z).
  split; [reflexivity|]. split; [apply slot_info_packs; exact O|apply slot_info_back; exact O].
Qed.
Print Assumptions C169_slot_info.

(* Whatever record it is read into, and whatever follows: `credential`. *)
Theorem C169_credential : forall z old rest, credential_ok z ->
  snd (unmarshal credential_field old (marshal_credential z ++ rest)) = Some (z, rest).
Proof.
  intros z old rest O. apply reads_credential. exists (credential_value z), (marshal_credential z).
  split; [reflexivity|]. split; [apply credential_packs; exact O|apply credential_back; exact O].
Qed.
Print Assumptions C169_credential.

(* Whatever record it is read into, and whatever follows: `disk_info`. *)
Theorem C169_disk_info : forall z old rest, disk_info_ok z ->
  snd (unmarshal disk_info_field old (marshal_disk_info z ++ rest)) = Some (z, rest).
Proof.
  intros z old rest O. apply reads_disk_info. exists (disk_info_value z), (marshal_disk_info z).
  split; [reflexivity|]. split; [apply disk_info_packs; exact O|apply disk_info_back; exact O].
Qed.
Print Assumptions C169_disk_info.

(* Whatever record it is read into, and whatever follows: `io_stats`. *)
Theorem C169_io_stats : forall z old rest, io_stats_ok z ->
  snd (unmarshal io_stats_field old (marshal_io_stats z ++ rest)) = Some (z, rest).
Proof.
  intros z old rest O. apply reads_io_stats. exists (io_stats_value z), (marshal_io_stats z).
  split; [reflexivity|]. split; [apply io_stats_packs; exact O|apply io_stats_back; exact O].
Qed.
Print Assumptions C169_io_stats.

(* Whatever record it is read into, and whatever follows: `mem_status`. *)
Theorem C169_mem_status : forall z old rest, mem_status_ok z ->
  snd (unmarshal mem_status_field old (marshal_mem_status z ++ rest)) = Some (z, rest).
Proof.
  intros z old rest O. apply reads_mem_status. exists (mem_status_value z), (marshal_mem_status z).
  split; [reflexivity|]. split; [apply mem_status_packs; exact O|apply mem_status_back; exact O].
Qed.
Print Assumptions C169_mem_status.

(* Whatever record it is read into, and whatever follows: `cpu_stat`. *)
Theorem C169_cpu_stat : forall widen, forall z old rest, cpu_stat_ok z ->
  snd (unmarshal (cpu_stat_field widen) old (marshal_cpu_stat z ++ rest)) = Some (z, rest).
Proof.
  intros widen z old rest O. apply reads_cpu_stat. exists (cpu_stat_value z), (marshal_cpu_stat z).
  split; [reflexivity|]. split; [apply cpu_stat_packs; exact O|apply cpu_stat_back; exact O].
Qed.
Print Assumptions C169_cpu_stat.

(* Whatever record it is read into, and whatever follows: `system_info`. *)
Theorem C169_system_info : forall widen, forall z old rest, system_info_ok z ->
  snd (unmarshal (system_info_field widen) old (marshal_system_info z ++ rest)) = Some (z, rest).
Proof.
  intros widen z old rest O. apply reads_system_info. exists (system_info_value z), (marshal_system_info z).
  split; [reflexivity|]. split; [apply system_info_packs; exact O|apply system_info_back; exact O].
Qed.
Print Assumptions C169_system_info.

(* Bytes of a `extra` are bytes of one only, and do not begin the bytes of another. *)
Theorem C169_extra_one : forall z z' rest rest', extra_ok z -> extra_ok z' ->
  marshal_extra z ++ rest = marshal_extra z' ++ rest' -> z = z' /\ rest = rest'.
Proof.
  intros z z' rest rest' O O' E. pose proof (C169_extra  z zero_extra rest O) as A.
  rewrite E, (C169_extra  z' zero_extra rest' O') in A. injection A as -> ->. auto.
Qed.
Print Assumptions C169_extra_one.

(* Bytes of a `metadata` are bytes of one only, and do not begin the bytes of another. *)
Theorem C169_metadata_one : forall z z' rest rest', metadata_ok z -> metadata_ok z' ->
  marshal_metadata z ++ rest = marshal_metadata z' ++ rest' -> z = z' /\ rest = rest'.
Proof.
  intros z z' rest rest' O O' E. pose proof (C169_metadata  z zero_metadata rest O) as A.
  rewrite E, (C169_metadata  z' zero_metadata rest' O') in A. injection A as -> ->. auto.
Qed.
Print Assumptions C169_metadata_one.

(* Bytes of a `version` are bytes of one only, and do not begin the bytes of another. *)
Theorem C169_version_one : forall z z' rest rest', version_ok z -> version_ok z' ->
  marshal_version z ++ rest = marshal_version z' ++ rest' -> z = z' /\ rest = rest'.
Proof.
  intros z z' rest rest' O O' E. pose proof (C169_version  z zero_version rest O) as A.
  rewrite E, (C169_version  z' zero_version rest' O') in A. injection A as -> ->. auto.
Qed.
Print Assumptions C169_version_one.

(* Bytes of a `bucket` are bytes of one only, and do not begin the bytes of another. *)
Theorem C169_bucket_one : forall z z' rest rest', bucket_ok z -> bucket_ok z' ->
  marshal_bucket z ++ rest = marshal_bucket z' ++ rest' -> z = z' /\ rest = rest'.
Proof.
  intros z z' rest rest' O O' E. pose proof (C169_bucket  z zero_bucket rest O) as A.
  rewrite E, (C169_bucket  z' zero_bucket rest' O') in A. injection A as -> ->. auto.
Qed.
Print Assumptions C169_bucket_one.

(* Bytes of a `raft_data` are bytes of one only, and do not begin the bytes of another. *)
Theorem C169_raft_data_one : forall z z' rest rest', raft_data_ok z -> raft_data_ok z' ->
  marshal_raft_data z ++ rest = marshal_raft_data z' ++ rest' -> z = z' /\ rest = rest'.
Proof.
  intros z z' rest rest' O O' E. pose proof (C169_raft_data  z zero_raft_data rest O) as A.
  rewrite E, (C169_raft_data  z' zero_raft_data rest' O') in A. injection A as -> ->. auto.
Qed.
Print Assumptions C169_raft_data_one.

(* Bytes of a `slot_info` are bytes of one only, and do not begin the bytes of another. *)
Theorem C169_slot_info_one : forall z z' rest rest', slot_info_ok z -> slot_info_ok z' ->
  marshal_slot_info z ++ rest = marshal_slot_info z' ++ rest' -> z = z' /\ rest = rest'.
Proof.
  intros z z' rest rest' O O' E. pose proof (C169_slot_info  z zero_slot_info rest O) as A.
  rewrite E, (C169_slot_info  z' zero_slot_info rest' O') in A. injection A as -> ->. auto.
Qed.
Print Assumptions C169_slot_info_one.

(* Bytes of a `credential` are bytes of one only, and do not begin the bytes of another. *)
Theorem C169_credential_one : forall z z' rest rest', credential_ok z -> credential_ok z' ->
  marshal_credential z ++ rest = marshal_credential z' ++ rest' -> z = z' /\ rest = rest'.
Proof.
  intros z z' rest rest' O O' E. pose proof (C169_credential  z zero_credential rest O) as A.
  rewrite E, (C169_credential  z' zero_credential rest' O') in A. injection A as -> ->. auto.
Qed.
Print Assumptions C169_credential_one.

(* Bytes of a `disk_info` are bytes of one only, and do not begin the bytes of another. *)
Theorem C169_disk_info_one : forall z z' rest rest', disk_info_ok z -> disk_info_ok z' ->
  marshal_disk_info z ++ rest = marshal_disk_info z' ++ rest' -> z = z' /\ rest = rest'.
Proof.
  intros z z' rest rest' O O' E. pose proof (C169_disk_info  z zero_disk_info rest O) as A.
  rewrite E, (C169_disk_info  z' zero_disk_info rest' O') in A. injection A as -> ->. auto.
Qed.
Print Assumptions C169_disk_info_one.

(* Bytes of a `io_stats` are bytes of one only, and do not begin the bytes of another. *)
Theorem C169_io_stats_one : forall z z' rest rest', io_stats_ok z -> io_stats_ok z' ->
  marshal_io_stats z ++ rest = marshal_io_stats z' ++ rest' -> z = z' /\ rest = rest'.
Proof.
  intros z z' rest rest' O O' E. pose proof (C169_io_stats  z zero_io_stats rest O) as A.
  rewrite E, (C169_io_stats  z' zero_io_stats rest' O') in A. injection A as -> ->. auto.
Qed.
Print Assumptions C169_io_stats_one.

(* Bytes of a `mem_status` are bytes of one only, and do not begin the bytes of another. *)
Theorem C169_mem_status_one : forall z z' rest rest', mem_status_ok z -> mem_status_ok z' ->
  marshal_mem_status z ++ rest = marshal_mem_status z' ++ rest' -> z = z' /\ rest = rest'.
Proof.
  intros z z' rest rest' O O' E. pose proof (C169_mem_status  z zero_mem_status rest O) as A.
  rewrite E, (C169_mem_status  z' zero_mem_status rest' O') in A. injection A as -> ->. auto.
Qed.
Print Assumptions C169_mem_status_one.

(* Bytes of a `cpu_stat` are bytes of one only, and do not begin the bytes of another. *)
Theorem C169_cpu_stat_one : forall z z' rest rest', cpu_stat_ok z -> cpu_stat_ok z' ->
  marshal_cpu_stat z ++ rest = marshal_cpu_stat z' ++ rest' -> z = z' /\ rest = rest'.
Proof.
  intros z z' rest rest' O O' E. pose proof (C169_cpu_stat (fun n => n) z zero_cpu_stat rest O) as A.
  rewrite E, (C169_cpu_stat (fun n => n) z' zero_cpu_stat rest' O') in A. injection A as -> ->. auto.
Qed.
Print Assumptions C169_cpu_stat_one.

(* Bytes of a `system_info` are bytes of one only, and do not begin the bytes of another. *)
Theorem C169_system_info_one : forall z z' rest rest', system_info_ok z -> system_info_ok z' ->
  marshal_system_info z ++ rest = marshal_system_info z' ++ rest' -> z = z' /\ rest = rest'.
Proof.
  intros z z' rest rest' O O' E. pose proof (C169_system_info (fun n => n) z zero_system_info rest O) as A.
  rewrite E, (C169_system_info (fun n => n) z' zero_system_info rest' O') in A. injection A as -> ->. auto.
Qed.
Print Assumptions C169_system_info_one.

(* `DecodeMsgp` of what `EncodeMsgp` wrote. *)
Theorem C169_codec : forall v old, version_ok v ->
  decode_msgp (unmarshal version_field) old (encode_msgp marshal_version v) = Some v.
Proof.
  intros v old O. unfold decode_msgp, encode_msgp. rewrite <- (app_nil_r (marshal_version v)), C169_version by exact O.
  reflexivity.
Qed.
Print Assumptions C169_codec.

(* A list of versions sent by a metadata server arrives at the API server as it was: the lists of `Codec` over the
   bytes of this model (src/metaserver/internal/controller/grpc/metadata_server.go 37, meta_server.go 230). *)
Theorem C169_versions : forall l,
  (forall v, In v l -> version_ok v /\ len (marshal_version v) <= 2147483647) ->
  exists bytes,
    Codec_Model.encode_array (fun v => Some (map ord (marshal_version v))) l = Codec_Model.EncOk bytes /\
    Codec_Model.decode_array (fun b => decode_msgp (unmarshal version_field) zero_version (map chr b)) bytes
      = Codec_Model.DecOk l.
Proof.
  intros l H. apply Codec_Props.C11_array_roundtrip. intros v I. destruct (H v I) as [O L].
  exists (map ord (marshal_version v)). split; [reflexivity|]. split; [rewrite map_length; exact L|].
  rewrite map_map, (map_ext _ id chr_ord), map_id. exact (C169_codec v zero_version O).
Qed.
Print Assumptions C169_versions.

(* A version as the API server saves it: negative, small and large numbers, a long text. *)
Definition some_version : version :=
  MkVersion true (-1)%Z 4%Z 2%Z 1048576%Z 4000000000%Z (-5000000000)%Z 18446744073709551615
    (repeat (chr 97) 64) (s2l "u-1"%string) [s2l "10.0.0.1:5000"%string; []].

Example C169_version_nonvacuous : version_ok some_version /\
  snd (unmarshal version_field zero_version (marshal_version some_version)) = Some (some_version, []).
Proof. split; [unfold version_ok, fits_texts; repeat split; repeat constructor; vm_compute; congruence|vm_compute; reflexivity]. Qed.

(* The first bytes are those of the generated code: 0x8b, 0xa8, "compress", true, 0xae, … *)
Example C169_bytes : firstn 27 (map ord (marshal_version some_version)) =
  [0x8b; 0xa8; 0x63; 0x6f; 0x6d; 0x70; 0x72; 0x65; 0x73; 0x73; 0xc3;
   0xae; 0x73; 0x74; 0x6f; 0x72; 0x65; 0x5f; 0x73; 0x74; 0x72; 0x61; 0x74; 0x65; 0x67; 0x79; 0xff].
Proof. vm_compute. reflexivity. Qed.

Definition some_raft : raft_data :=
  MkRaft 1%Z 1%Z (s2l "b/o"%string) 7 (Some some_version)
    (Some (MkMetadata (Some (MkExtra 3%Z 1%Z 3%Z)) (s2l "o"%string) (s2l "b"%string) 1%Z 2%Z)) None.

Example C169_raft_data_nonvacuous : raft_data_ok some_raft /\
  snd (unmarshal raft_data_field zero_raft_data (marshal_raft_data some_raft ++ [chr 1])) = Some (some_raft, [chr 1]).
Proof.
  split; [unfold raft_data_ok, fits_pointer, version_ok, metadata_ok, extra_ok, fits_texts; cbn;
          repeat split; repeat constructor; vm_compute; congruence|vm_compute; reflexivity].
Qed.

Definition some_system : system_info :=
  MkSystem (Some (MkDisk 5000000000 4 5 6 7 8 9 (s2l "EXT4"%string))) None (Some (MkCpu 4607182418800017408 8%Z 4%Z))
    (Some (MkIo 1 2 3 4 5 6 7 8 9)).

Example C169_system_info_nonvacuous : system_info_ok some_system /\
  snd (unmarshal (system_info_field (fun n => n)) zero_system_info (marshal_system_info some_system)) = Some (some_system, []).
Proof.
  split; [unfold system_info_ok, fits_pointer, disk_info_ok, cpu_stat_ok, io_stats_ok; cbn;
          repeat split; vm_compute; congruence|vm_compute; reflexivity].
Qed.

Example C169_versions_nonvacuous : forall v, In v [some_version; zero_version] ->
  version_ok v /\ len (marshal_version v) <= 2147483647.
Proof.
  intros v [<-|[<-|[]]]; (split; [apply C169_version_nonvacuous || exact zero_version_ok|vm_compute; congruence]).
Qed.

Example C169_others_nonvacuous :
  (exists b, bucket_ok b /\ b_policies b <> [] /\
     snd (unmarshal bucket_field zero_bucket (marshal_bucket b)) = Some (b, [])) /\
  (exists s, slot_info_ok s /\ s_slots s <> [] /\
     snd (unmarshal slot_info_field zero_slot_info (marshal_slot_info s)) = Some (s, [])) /\
  (exists c, credential_ok c /\ c_password c <> [] /\
     snd (unmarshal credential_field zero_credential (marshal_credential c)) = Some (c, [])).
Proof.
  split; [|split].
  - exists (MkBucket true false true 1%Z 4%Z 2%Z (-3)%Z 1700000000000%Z 1700000000001%Z (s2l "b"%string) [s2l "p"%string]).
    split; [unfold bucket_ok, fits_texts; cbn; repeat split; repeat constructor; vm_compute; congruence|].
    split; [discriminate|vm_compute; reflexivity].
  - exists (MkSlots (s2l "g"%string) (s2l "m1"%string) [s2l "0-100"%string; s2l "200-16384"%string]).
    split; [unfold slot_info_ok, fits_texts; cbn; repeat split; repeat constructor; vm_compute; congruence|].
    split; [discriminate|vm_compute; reflexivity].
  - exists (MkCredential (s2l "admin"%string) (s2l "pw"%string)).
    split; [unfold credential_ok; cbn; split; vm_compute; congruence|].
    split; [discriminate|vm_compute; reflexivity].
Qed.

(* === C170: exactly the bytes of a MessagePack map are read, field by field by name === *)

(* `extra`: a read ends with a record and a rest exactly when bytes of a map come first whose fields mean
   that record: any order, any width of numbers, fields of other names passed over, absent ones kept. *)
Theorem C170_extra : forall old b z r, snd (unmarshal extra_field old b) = Some (z, r) <->
  exists x p, b = p ++ r /\ packs x p /\ extra_of x old = Some z.
Proof. intros old b z r. apply reads_extra. Qed.
Print Assumptions C170_extra.

(* `metadata`: a read ends with a record and a rest exactly when bytes of a map come first whose fields mean
   that record: any order, any width of numbers, fields of other names passed over, absent ones kept. *)
Theorem C170_metadata : forall old b z r, snd (unmarshal metadata_field old b) = Some (z, r) <->
  exists x p, b = p ++ r /\ packs x p /\ metadata_of x old = Some z.
Proof. intros old b z r. apply reads_metadata. Qed.
Print Assumptions C170_metadata.

(* `version`: a read ends with a record and a rest exactly when bytes of a map come first whose fields mean
   that record: any order, any width of numbers, fields of other names passed over, absent ones kept. *)
Theorem C170_version : forall old b z r, snd (unmarshal version_field old b) = Some (z, r) <->
  exists x p, b = p ++ r /\ packs x p /\ version_of x old = Some z.
Proof. intros old b z r. apply reads_version. Qed.
Print Assumptions C170_version.

(* `bucket`: a read ends with a record and a rest exactly when bytes of a map come first whose fields mean
   that record: any order, any width of numbers, fields of other names passed over, absent ones kept. *)
Theorem C170_bucket : forall old b z r, snd (unmarshal bucket_field old b) = Some (z, r) <->
  exists x p, b = p ++ r /\ packs x p /\ bucket_of x old = Some z.
Proof. intros old b z r. apply reads_bucket. Qed.
Print Assumptions C170_bucket.

(* `raft_data`: a read ends with a record and a rest exactly when bytes of a map come first whose fields mean
   that record: any order, any width of numbers, fields of other names passed over, absent ones kept. *)
Theorem C170_raft_data : forall old b z r, snd (unmarshal raft_data_field old b) = Some (z, r) <->
  exists x p, b = p ++ r /\ packs x p /\ raft_data_of x old = Some z.
Proof. intros old b z r. apply reads_raft_data. Qed.
Print Assumptions C170_raft_data.

(* `slot_info`: a read ends with a record and a rest exactly when bytes of a map come first whose fields mean
   that record: any order, any width of numbers, fields of other names passed over, absent ones kept. *)
Theorem C170_slot_info : forall old b z r, snd (unmarshal slot_info_field old b) = Some (z, r) <->
  exists x p, b = p ++ r /\ packs x p /\ slot_info_of x old = Some z.
Proof. intros old b z r. apply reads_slot_info. Qed.
Print Assumptions C170_slot_info.

(* `credential`: a read ends with a record and a rest exactly when bytes of a map come first whose fields mean
   that record: any order, any width of numbers, fields of other names passed over, absent ones kept. *)
Theorem C170_credential : forall old b z r, snd (unmarshal credential_field old b) = Some (z, r) <->
  exists x p, b = p ++ r /\ packs x p /\ credential_of x old = Some z.
Proof. intros old b z r. apply reads_credential. Qed.
Print Assumptions C170_credential.

(* `disk_info`: a read ends with a record and a rest exactly when bytes of a map come first whose fields mean
   that record: any order, any width of numbers, fields of other names passed over, absent ones kept. *)
Theorem C170_disk_info : forall old b z r, snd (unmarshal disk_info_field old b) = Some (z, r) <->
  exists x p, b = p ++ r /\ packs x p /\ disk_info_of x old = Some z.
Proof. intros old b z r. apply reads_disk_info. Qed.
Print Assumptions C170_disk_info.

(* `io_stats`: a read ends with a record and a rest exactly when bytes of a map come first whose fields mean
   that record: any order, any width of numbers, fields of other names passed over, absent ones kept. *)
Theorem C170_io_stats : forall old b z r, snd (unmarshal io_stats_field old b) = Some (z, r) <->
  exists x p, b = p ++ r /\ packs x p /\ io_stats_of x old = Some z.
Proof. intros old b z r. apply reads_io_stats. Qed.
Print Assumptions C170_io_stats.

(* `mem_status`: a read ends with a record and a rest exactly when bytes of a map come first whose fields mean
   that record: any order, any width of numbers, fields of other names passed over, absent ones kept. *)
Theorem C170_mem_status : forall old b z r, snd (unmarshal mem_status_field old b) = Some (z, r) <->
  exists x p, b = p ++ r /\ packs x p /\ mem_status_of x old = Some z.
Proof. intros old b z r. apply reads_mem_status. Qed.
Print Assumptions C170_mem_status.

(* `cpu_stat`: a read ends with a record and a rest exactly when bytes of a map come first whose fields mean
   that record: any order, any width of numbers, fields of other names passed over, absent ones kept. *)
Theorem C170_cpu_stat : forall widen, forall old b z r, snd (unmarshal (cpu_stat_field widen) old b) = Some (z, r) <->
  exists x p, b = p ++ r /\ packs x p /\ cpu_stat_of widen x old = Some z.
Proof. intros widen old b z r. apply reads_cpu_stat. Qed.
Print Assumptions C170_cpu_stat.

(* `system_info`: a read ends with a record and a rest exactly when bytes of a map come first whose fields mean
   that record: any order, any width of numbers, fields of other names passed over, absent ones kept. *)
Theorem C170_system_info : forall widen, forall old b z r, snd (unmarshal (system_info_field widen) old b) = Some (z, r) <->
  exists x p, b = p ++ r /\ packs x p /\ system_info_of widen x old = Some z.
Proof. intros widen old b z r. apply reads_system_info. Qed.
Print Assumptions C170_system_info.

(* What the writer writes is such bytes. *)
Theorem C170_written : forall v, version_ok v -> packs (version_value v) (marshal_version v).
Proof. exact version_packs. Qed.
Print Assumptions C170_written.

(* Slots only look at their own name. *)
Lemma slot_filter : forall A (as_ : A -> value -> option A) name fs old,
  slot as_ name fs old = slot as_ name (filter (fun f => str_eqb (fst f) (s2l name)) fs) old.
Proof.
  intros A as_ name. induction fs as [|[k x] fs IH]; intros old; [reflexivity|]. cbn [slot filter fst].
  destruct (str_eqb k (s2l name)) eqn:E.
  - cbn [slot]. rewrite E. destruct (as_ old x); [apply IH|reflexivity].
  - apply IH.
Qed.

Lemma slot_order : forall A (as_ : A -> value -> option A) name fs gs old,
  NoDup (map fst fs) -> Permutation fs gs -> slot as_ name fs old = slot as_ name gs old.
Proof.
  intros A as_ name fs gs old ND P. rewrite slot_filter, (slot_filter _ _ _ gs).
  set (f := fun f : str * value => str_eqb (fst f) (s2l name)).
  assert (PF : Permutation (filter f fs) (filter f gs)).
  { clear ND. induction P as [|x l l' P IH|x y l|l l' l'' P1 IH1 P2 IH2]; cbn [filter].
    - constructor.
    - destruct (f x); [constructor|]; exact IH.
    - destruct (f x), (f y); try reflexivity. apply perm_swap.
    - etransitivity; eassumption. }
  assert (ND' : NoDup (map fst (filter f fs))).
  { clear P PF. induction fs as [|y l IH]; [constructor|]. cbn [map] in ND. inversion ND as [|a b NI ND2]; subst.
    cbn [filter]. destruct (f y); [|auto]. cbn [map]. constructor; [|auto].
    intros I. apply NI. apply in_map_iff in I as (w & E & I). apply filter_In in I as [I _].
    rewrite <- E. apply in_map. exact I. }
  assert (All : Forall (fun y : str * value => fst y = s2l name) (filter f fs)).
  { apply Forall_forall. intros y I. apply filter_In in I as [_ I]. apply str_eqb_true in I. exact I. }
  destruct (filter f fs) as [|y [|w l]].
  - apply Permutation_nil in PF. rewrite PF. reflexivity.
  - apply Permutation_length_1_inv in PF. rewrite PF. reflexivity.
  - exfalso. inversion All as [|? ? A1 A2]; subst. inversion A2 as [|? ? A3 A4]; subst.
    cbn [map] in ND'. inversion ND' as [|? ? NI _]; subst. apply NI. left. congruence.
Qed.

Lemma names_perm : forall l l', Permutation l l' -> forall fs, names_of l = Some fs ->
  exists gs, names_of l' = Some gs /\ Permutation fs gs.
Proof.
  intros l l' P. induction P as [|[k x] l l' P IH|[k x] [k' x'] l|l l' l'' P1 IH1 P2 IH2]; intros fs H.
  - exists fs. split; [exact H|reflexivity].
  - apply names_cons in H as (n & gs & K & G & ->). destruct (IH gs G) as (hs & H1 & H2).
    exists ((n, x) :: hs). split; [apply names_cons; eauto|constructor; exact H2].
  - apply names_cons in H as (n & gs & K & G & ->). apply names_cons in G as (n' & hs & K' & G & ->).
    exists ((n', x) :: (n, x') :: hs). split; [|apply perm_swap].
    apply names_cons. exists n', ((n, x') :: hs). repeat split; [exact K'|]. apply names_cons. eauto.
  - destruct (IH1 fs H) as (gs & H1 & H2). destruct (IH2 gs H1) as (hs & H3 & H4).
    exists hs. split; [exact H3|etransitivity; eassumption].
Qed.

(* Two maps with the same fields in another order, no name twice, written in any widths: what is read out of
   one is read out of the other. *)
Theorem C170_order : forall l l' fs p p' old v rest rest',
  Permutation l l' -> names_of l = Some fs -> NoDup (map fst fs) ->
  packs (VMap l) p -> packs (VMap l') p' -> version_of (VMap l) old = Some v ->
  snd (unmarshal version_field old (p ++ rest)) = Some (v, rest) /\
  snd (unmarshal version_field old (p' ++ rest')) = Some (v, rest').
Proof.
  intros l l' fs p p' old v rest rest' P NM ND PP PP' V. split; apply C170_version.
  - exists (VMap l), p. auto.
  - exists (VMap l'), p'. split; [reflexivity|]. split; [exact PP'|].
    destruct (names_perm l l' P fs NM) as (gs & NM' & PG). rewrite <- V.
    unfold version_of, meaning. rewrite NM, NM'.
    repeat match goal with
      | |- context [slot ?a ?n gs ?o] => rewrite <- (slot_order _ a n fs gs o ND PG)
      end. reflexivity.
Qed.
Print Assumptions C170_order.

Lemma names_app : forall l m fs gs, names_of l = Some fs -> names_of m = Some gs -> names_of (l ++ m) = Some (fs ++ gs).
Proof.
  induction l as [|[k x] l IH]; intros m fs gs A B.
  - injection A as <-. exact B.
  - apply names_cons in A as (n & hs & K & A & ->). cbn [app]. apply names_cons. exists n, (hs ++ gs). auto.
Qed.

Lemma slot_other : forall A (as_ : A -> value -> option A) name fs gs k x old, k <> s2l name ->
  slot as_ name (fs ++ (k, x) :: gs) old = slot as_ name (fs ++ gs) old.
Proof.
  intros A as_ name fs gs k x old NE. rewrite slot_filter, (slot_filter _ _ _ (fs ++ gs)).
  f_equal. rewrite !filter_app. f_equal. cbn [filter fst].
  destruct (str_eqb k (s2l name)) eqn:E; [apply str_eqb_true in E; congruence|reflexivity].
Qed.

Definition version_names : list str :=
  map s2l ["compress"; "store_strategy"; "data_shards"; "parity_shards"; "shard_size"; "size"; "ts"; "sequence";
           "hash"; "uniqueId"; "locate"]%string.

(* A field of a name no version has, anywhere in the map and whatever is in it, changes nothing: records written
   by a newer program are read by an older one. *)
Theorem C170_unknown : forall l m fs gs k x p old v rest,
  names_of l = Some fs -> names_of m = Some gs -> ~ In k version_names ->
  version_of (VMap (l ++ m)) old = Some v ->
  packs (VMap (l ++ (VText k, x) :: m)) p ->
  snd (unmarshal version_field old (p ++ rest)) = Some (v, rest).
Proof.
  intros l m fs gs k x p old v rest NL NM NI V P. apply C170_version.
  exists (VMap (l ++ (VText k, x) :: m)), p. split; [reflexivity|]. split; [exact P|]. rewrite <- V.
  assert (N2 : names_of ((VText k, x) :: m) = Some ((k, x) :: gs)) by (cbn [names_of]; rewrite NM; reflexivity).
  unfold version_of, meaning. rewrite (names_app _ _ _ _ NL N2), (names_app _ _ _ _ NL NM).
  repeat match goal with
    | |- context [slot ?a ?n (fs ++ (k, x) :: gs) ?o] => rewrite (slot_other _ a n fs gs k x o)
           by (intros ->; apply NI; vm_compute; tauto)
    end. reflexivity.
Qed.
Print Assumptions C170_unknown.

(* A map with its fields turned round, numbers in wider forms, one field missing and one unknown. *)
Example C170_nonvacuous :
  let old := MkVersion false 0%Z 0%Z 0%Z 9%Z 0%Z 0%Z 0 [] [] [] in
  let b := chr 0x84 :: put "hash" (app_string (s2l "h"%string)) ++ put "new" (chr 0x92 :: app_nil ++ app_bool true)
           ++ put "size" (chr 0xd3 :: be 8 5) ++ put "compress" (app_bool true) in
  snd (unmarshal version_field old b) = Some (MkVersion true 0%Z 0%Z 0%Z 9%Z 5%Z 0%Z 0 (s2l "h"%string) [] [], []).
Proof. vm_compute. reflexivity. Qed.

Example C170_order_nonvacuous :
  let l := [named "size" (VInt 5); named "hash" (VText (s2l "h"%string))] in
  let l' := [named "hash" (VText (s2l "h"%string)); named "size" (VInt 5)] in
  let b := chr 0x82 :: put "size" (app_int 5) ++ put "hash" (app_string (s2l "h"%string)) in
  let b' := chr 0x82 :: put "hash" (app_string (s2l "h"%string)) ++ put "size" (chr 0xd3 :: be 8 5) in
  Permutation l l' /\ packs (VMap l) b /\ packs (VMap l') b' /\ b <> b' /\
  exists v, version_of (VMap l) zero_version = Some v /\ v_size v = 5%Z.
Proof.
  cbv zeta. split; [apply perm_swap|]. split; [|split; [|split; [vm_compute; discriminate|]]].
  - apply (packs_record _ _ 2); [reflexivity|reflexivity|].
    apply packs_named; [reflexivity|apply packs_int; split; vm_compute; congruence|].
    apply packs_last; [reflexivity|apply packs_text; reflexivity].
  - apply (packs_record _ _ 2); [reflexivity|reflexivity|].
    apply packs_named; [reflexivity|apply packs_text; reflexivity|].
    apply packs_last; [reflexivity|]. constructor. apply (I_signed 8%nat 0xd3 (be 8 5)); [cbn; tauto|reflexivity].
  - eexists. split; [vm_compute; reflexivity|reflexivity].
Qed.

Example C170_unknown_nonvacuous : ~ In (s2l "new"%string) version_names /\
  version_of (VMap [named "size" (VInt 5)]) zero_version = Some (MkVersion false 0%Z 0%Z 0%Z 0%Z 5%Z 0%Z 0 [] [] []) /\
  packs (VMap [named "new" VNil; named "size" (VInt 5)]) (chr 0x82 :: put "new" app_nil ++ put "size" (app_int 5)).
Proof.
  split; [intros I; vm_compute in I; repeat destruct I as [I|I]; discriminate || exact I|]. split; [vm_compute; reflexivity|].
  apply (packs_record _ _ 2); [reflexivity|reflexivity|].
  apply packs_named; [reflexivity|constructor|]. apply packs_last; [reflexivity|apply packs_int; split; vm_compute; congruence].
Qed.

(* === C171: bytes that are no record === *)

(* Bytes of a `extra` cut short anywhere are an error. *)
Theorem C171_extra_cut : forall z old p q, extra_ok z -> q <> [] -> marshal_extra z = p ++ q ->
  snd (unmarshal extra_field old p) = None.
Proof.
  intros z old p q O NE E. destruct (snd (unmarshal extra_field old p)) as [[z' r']|] eqn:U; [exfalso|reflexivity].
  apply C170_extra in U as (x & p1 & -> & P & V).
  assert (A : snd (unmarshal extra_field old (p1 ++ (r' ++ q))) = Some (z', r' ++ q)) by (apply C170_extra; eauto).
  rewrite app_assoc, <- E in A. rewrite <- (app_nil_r (marshal_extra z)), C169_extra in A by exact O.
  injection A as _ A. destruct r'; [cbn in A; congruence|discriminate].
Qed.
Print Assumptions C171_extra_cut.

(* Bytes of a `metadata` cut short anywhere are an error. *)
Theorem C171_metadata_cut : forall z old p q, metadata_ok z -> q <> [] -> marshal_metadata z = p ++ q ->
  snd (unmarshal metadata_field old p) = None.
Proof.
  intros z old p q O NE E. destruct (snd (unmarshal metadata_field old p)) as [[z' r']|] eqn:U; [exfalso|reflexivity].
  apply C170_metadata in U as (x & p1 & -> & P & V).
  assert (A : snd (unmarshal metadata_field old (p1 ++ (r' ++ q))) = Some (z', r' ++ q)) by (apply C170_metadata; eauto).
  rewrite app_assoc, <- E in A. rewrite <- (app_nil_r (marshal_metadata z)), C169_metadata in A by exact O.
  injection A as _ A. destruct r'; [cbn in A; congruence|discriminate].
Qed.
Print Assumptions C171_metadata_cut.

(* Bytes of a `version` cut short anywhere are an error. *)
Theorem C171_version_cut : forall z old p q, version_ok z -> q <> [] -> marshal_version z = p ++ q ->
  snd (unmarshal version_field old p) = None.
Proof.
  intros z old p q O NE E. destruct (snd (unmarshal version_field old p)) as [[z' r']|] eqn:U; [exfalso|reflexivity].
  apply C170_version in U as (x & p1 & -> & P & V).
  assert (A : snd (unmarshal version_field old (p1 ++ (r' ++ q))) = Some (z', r' ++ q)) by (apply C170_version; eauto).
  rewrite app_assoc, <- E in A. rewrite <- (app_nil_r (marshal_version z)), C169_version in A by exact O.
  injection A as _ A. destruct r'; [cbn in A; congruence|discriminate].
Qed.
Print Assumptions C171_version_cut.

(* Bytes of a `bucket` cut short anywhere are an error. *)
Theorem C171_bucket_cut : forall z old p q, bucket_ok z -> q <> [] -> marshal_bucket z = p ++ q ->
  snd (unmarshal bucket_field old p) = None.
Proof.
  intros z old p q O NE E. destruct (snd (unmarshal bucket_field old p)) as [[z' r']|] eqn:U; [exfalso|reflexivity].
  apply C170_bucket in U as (x & p1 & -> & P & V).
  assert (A : snd (unmarshal bucket_field old (p1 ++ (r' ++ q))) = Some (z', r' ++ q)) by (apply C170_bucket; eauto).
  rewrite app_assoc, <- E in A. rewrite <- (app_nil_r (marshal_bucket z)), C169_bucket in A by exact O.
  injection A as _ A. destruct r'; [cbn in A; congruence|discriminate].
Qed.
Print Assumptions C171_bucket_cut.

(* Bytes of a `raft_data` cut short anywhere are an error. *)
Theorem C171_raft_data_cut : forall z old p q, raft_data_ok z -> q <> [] -> marshal_raft_data z = p ++ q ->
  snd (unmarshal raft_data_field old p) = None.
Proof.
  intros z old p q O NE E. destruct (snd (unmarshal raft_data_field old p)) as [[z' r']|] eqn:U; [exfalso|reflexivity].
  apply C170_raft_data in U as (x & p1 & -> & P & V).
  assert (A : snd (unmarshal raft_data_field old (p1 ++ (r' ++ q))) = Some (z', r' ++ q)) by (apply C170_raft_data; eauto).
  rewrite app_assoc, <- E in A. rewrite <- (app_nil_r (marshal_raft_data z)), C169_raft_data in A by exact O.
  injection A as _ A. destruct r'; [cbn in A; congruence|discriminate].
Qed.
Print Assumptions C171_raft_data_cut.

(* Bytes of a `slot_info` cut short anywhere are an error. *)
Theorem C171_slot_info_cut : forall z old p q, slot_info_ok z -> q <> [] -> marshal_slot_info z = p ++ q ->
  snd (unmarshal slot_info_field old p) = None.
Proof.
  intros z old p q O NE E. destruct (snd (unmarshal slot_info_field old p)) as [[z' r']|] eqn:U; [exfalso|reflexivity].
  apply C170_slot_info in U as (x & p1 & -> & P & V).
  assert (A : snd (unmarshal slot_info_field old (p1 ++ (r' ++ q))) = Some (z', r' ++ q)) by (apply C170_slot_info; eauto).
  rewrite app_assoc, <- E in A. rewrite <- (app_nil_r (marshal_slot_info z)), C169_slot_info in A by exact O.
  injection A as _ A. destruct r'; [cbn in A; congruence|discriminate].
Qed.
Print Assumptions C171_slot_info_cut.

(* Bytes of a `credential` cut short anywhere are an error. *)
Theorem C171_credential_cut : forall z old p q, credential_ok z -> q <> [] -> marshal_credential z = p ++ q ->
  snd (unmarshal credential_field old p) = None.
Proof.
  intros z old p q O NE E. destruct (snd (unmarshal credential_field old p)) as [[z' r']|] eqn:U; [exfalso|reflexivity].
  apply C170_credential in U as (x & p1 & -> & P & V).
  assert (A : snd (unmarshal credential_field old (p1 ++ (r' ++ q))) = Some (z', r' ++ q)) by (apply C170_credential; eauto).
  rewrite app_assoc, <- E in A. rewrite <- (app_nil_r (marshal_credential z)), C169_credential in A by exact O.
  injection A as _ A. destruct r'; [cbn in A; congruence|discriminate].
Qed.
Print Assumptions C171_credential_cut.

(* Bytes of a `disk_info` cut short anywhere are an error. *)
Theorem C171_disk_info_cut : forall z old p q, disk_info_ok z -> q <> [] -> marshal_disk_info z = p ++ q ->
  snd (unmarshal disk_info_field old p) = None.
Proof.
  intros z old p q O NE E. destruct (snd (unmarshal disk_info_field old p)) as [[z' r']|] eqn:U; [exfalso|reflexivity].
  apply C170_disk_info in U as (x & p1 & -> & P & V).
  assert (A : snd (unmarshal disk_info_field old (p1 ++ (r' ++ q))) = Some (z', r' ++ q)) by (apply C170_disk_info; eauto).
  rewrite app_assoc, <- E in A. rewrite <- (app_nil_r (marshal_disk_info z)), C169_disk_info in A by exact O.
  injection A as _ A. destruct r'; [cbn in A; congruence|discriminate].
Qed.
Print Assumptions C171_disk_info_cut.

(* Bytes of a `io_stats` cut short anywhere are an error. *)
Theorem C171_io_stats_cut : forall z old p q, io_stats_ok z -> q <> [] -> marshal_io_stats z = p ++ q ->
  snd (unmarshal io_stats_field old p) = None.
Proof.
  intros z old p q O NE E. destruct (snd (unmarshal io_stats_field old p)) as [[z' r']|] eqn:U; [exfalso|reflexivity].
  apply C170_io_stats in U as (x & p1 & -> & P & V).
  assert (A : snd (unmarshal io_stats_field old (p1 ++ (r' ++ q))) = Some (z', r' ++ q)) by (apply C170_io_stats; eauto).
  rewrite app_assoc, <- E in A. rewrite <- (app_nil_r (marshal_io_stats z)), C169_io_stats in A by exact O.
  injection A as _ A. destruct r'; [cbn in A; congruence|discriminate].
Qed.
Print Assumptions C171_io_stats_cut.

(* Bytes of a `mem_status` cut short anywhere are an error. *)
Theorem C171_mem_status_cut : forall z old p q, mem_status_ok z -> q <> [] -> marshal_mem_status z = p ++ q ->
  snd (unmarshal mem_status_field old p) = None.
Proof.
  intros z old p q O NE E. destruct (snd (unmarshal mem_status_field old p)) as [[z' r']|] eqn:U; [exfalso|reflexivity].
  apply C170_mem_status in U as (x & p1 & -> & P & V).
  assert (A : snd (unmarshal mem_status_field old (p1 ++ (r' ++ q))) = Some (z', r' ++ q)) by (apply C170_mem_status; eauto).
  rewrite app_assoc, <- E in A. rewrite <- (app_nil_r (marshal_mem_status z)), C169_mem_status in A by exact O.
  injection A as _ A. destruct r'; [cbn in A; congruence|discriminate].
Qed.
Print Assumptions C171_mem_status_cut.

(* Bytes of a `cpu_stat` cut short anywhere are an error. *)
Theorem C171_cpu_stat_cut : forall widen, forall z old p q, cpu_stat_ok z -> q <> [] -> marshal_cpu_stat z = p ++ q ->
  snd (unmarshal (cpu_stat_field widen) old p) = None.
Proof.
  intros widen z old p q O NE E. destruct (snd (unmarshal (cpu_stat_field widen) old p)) as [[z' r']|] eqn:U; [exfalso|reflexivity].
  apply C170_cpu_stat in U as (x & p1 & -> & P & V).
  assert (A : snd (unmarshal (cpu_stat_field widen) old (p1 ++ (r' ++ q))) = Some (z', r' ++ q)) by (apply C170_cpu_stat; eauto).
  rewrite app_assoc, <- E in A. rewrite <- (app_nil_r (marshal_cpu_stat z)), C169_cpu_stat in A by exact O.
  injection A as _ A. destruct r'; [cbn in A; congruence|discriminate].
Qed.
Print Assumptions C171_cpu_stat_cut.

(* Bytes of a `system_info` cut short anywhere are an error. *)
Theorem C171_system_info_cut : forall widen, forall z old p q, system_info_ok z -> q <> [] -> marshal_system_info z = p ++ q ->
  snd (unmarshal (system_info_field widen) old p) = None.
Proof.
  intros widen z old p q O NE E. destruct (snd (unmarshal (system_info_field widen) old p)) as [[z' r']|] eqn:U; [exfalso|reflexivity].
  apply C170_system_info in U as (x & p1 & -> & P & V).
  assert (A : snd (unmarshal (system_info_field widen) old (p1 ++ (r' ++ q))) = Some (z', r' ++ q)) by (apply C170_system_info; eauto).
  rewrite app_assoc, <- E in A. rewrite <- (app_nil_r (marshal_system_info z)), C169_system_info in A by exact O.
  injection A as _ A. destruct r'; [cbn in A; congruence|discriminate].
Qed.
Print Assumptions C171_system_info_cut.

(* Whatever the bytes, a `extra` that is read has its fields in their ranges. *)
Theorem C171_extra_range : forall old b z r, extra_ok old ->
  snd (unmarshal extra_field old b) = Some (z, r) -> extra_ok z.
Proof. intros old b z r O H. exact (gives_extra old O b z r H). Qed.
Print Assumptions C171_extra_range.

(* Whatever the bytes, a `metadata` that is read has its fields in their ranges. *)
Theorem C171_metadata_range : forall old b z r, metadata_ok old ->
  snd (unmarshal metadata_field old b) = Some (z, r) -> metadata_ok z.
Proof. intros old b z r O H. exact (gives_metadata old O b z r H). Qed.
Print Assumptions C171_metadata_range.

(* Whatever the bytes, a `version` that is read has its fields in their ranges. *)
Theorem C171_version_range : forall old b z r, version_ok old ->
  snd (unmarshal version_field old b) = Some (z, r) -> version_ok z.
Proof. intros old b z r O H. exact (gives_version old O b z r H). Qed.
Print Assumptions C171_version_range.

(* Whatever the bytes, a `bucket` that is read has its fields in their ranges. *)
Theorem C171_bucket_range : forall old b z r, bucket_ok old ->
  snd (unmarshal bucket_field old b) = Some (z, r) -> bucket_ok z.
Proof. intros old b z r O H. exact (gives_bucket old O b z r H). Qed.
Print Assumptions C171_bucket_range.

(* Whatever the bytes, a `raft_data` that is read has its fields in their ranges. *)
Theorem C171_raft_data_range : forall old b z r, raft_data_ok old ->
  snd (unmarshal raft_data_field old b) = Some (z, r) -> raft_data_ok z.
Proof. intros old b z r O H. exact (gives_raft_data old O b z r H). Qed.
Print Assumptions C171_raft_data_range.

(* Whatever the bytes, a `slot_info` that is read has its fields in their ranges. *)
Theorem C171_slot_info_range : forall old b z r, slot_info_ok old ->
  snd (unmarshal slot_info_field old b) = Some (z, r) -> slot_info_ok z.
Proof. intros old b z r O H. exact (gives_slot_info old O b z r H). Qed.
Print Assumptions C171_slot_info_range.

(* Whatever the bytes, a `credential` that is read has its fields in their ranges. *)
Theorem C171_credential_range : forall old b z r, credential_ok old ->
  snd (unmarshal credential_field old b) = Some (z, r) -> credential_ok z.
Proof. intros old b z r O H. exact (gives_credential old O b z r H). Qed.
Print Assumptions C171_credential_range.

(* Whatever the bytes, a `disk_info` that is read has its fields in their ranges. *)
Theorem C171_disk_info_range : forall old b z r, disk_info_ok old ->
  snd (unmarshal disk_info_field old b) = Some (z, r) -> disk_info_ok z.
Proof. intros old b z r O H. exact (gives_disk_info old O b z r H). Qed.
Print Assumptions C171_disk_info_range.

(* Whatever the bytes, a `io_stats` that is read has its fields in their ranges. *)
Theorem C171_io_stats_range : forall old b z r, io_stats_ok old ->
  snd (unmarshal io_stats_field old b) = Some (z, r) -> io_stats_ok z.
Proof. intros old b z r O H. exact (gives_io_stats old O b z r H). Qed.
Print Assumptions C171_io_stats_range.

(* Whatever the bytes, a `mem_status` that is read has its fields in their ranges. *)
Theorem C171_mem_status_range : forall old b z r, mem_status_ok old ->
  snd (unmarshal mem_status_field old b) = Some (z, r) -> mem_status_ok z.
Proof. intros old b z r O H. exact (gives_mem_status old O b z r H). Qed.
Print Assumptions C171_mem_status_range.

(* Whatever the bytes, a `cpu_stat` that is read has its fields in their ranges. *)
Theorem C171_cpu_stat_range : forall widen, (forall n, widen n < 2 ^ 64) -> forall old b z r, cpu_stat_ok old ->
  snd (unmarshal (cpu_stat_field widen) old b) = Some (z, r) -> cpu_stat_ok z.
Proof. intros widen W old b z r O H. exact (gives_cpu_stat widen W old O b z r H). Qed.
Print Assumptions C171_cpu_stat_range.

(* Whatever the bytes, a `system_info` that is read has its fields in their ranges. *)
Theorem C171_system_info_range : forall widen, (forall n, widen n < 2 ^ 64) -> forall old b z r, system_info_ok old ->
  snd (unmarshal (system_info_field widen) old b) = Some (z, r) -> system_info_ok z.
Proof. intros widen W old b z r O H. exact (gives_system_info widen W old O b z r H). Qed.
Print Assumptions C171_system_info_range.

(* The full claim, false below: room is made for no more strings than there are bytes. It holds where the read
   ends without an error; missing is the case of an error. *)
(** Partial.  Full statement: A record cut short is refused, a record that is read has its fields in
    the ranges of their types, and decoding makes room for no more strings than there are bytes.  It
    fails in general: [C171_room_refuted].  Refuted otherwise: 13 bytes make room for up to 2^32-1
    strings before the first is looked at. *)
Theorem C171_version_room_partial : forall old b z r, snd (unmarshal version_field old b) = Some (z, r) ->
  fst (unmarshal version_field old b) <= len b.
Proof. intros old b z r H. pose proof (spare_version old b z r H). lia. Qed.
Print Assumptions C171_version_room_partial.

(* The full claim, false below: room is made for no more strings than there are bytes. It holds where the read
   ends without an error; missing is the case of an error. *)
(** Partial; the full statement is at [C171_version_room_partial]. *)
Theorem C171_bucket_room_partial : forall old b z r, snd (unmarshal bucket_field old b) = Some (z, r) ->
  fst (unmarshal bucket_field old b) <= len b.
Proof. intros old b z r H. pose proof (spare_bucket old b z r H). lia. Qed.
Print Assumptions C171_bucket_room_partial.

(* The full claim, false below: room is made for no more strings than there are bytes. It holds where the read
   ends without an error; missing is the case of an error. *)
(** Partial; the full statement is at [C171_version_room_partial]. *)
Theorem C171_raft_data_room_partial : forall old b z r, snd (unmarshal raft_data_field old b) = Some (z, r) ->
  fst (unmarshal raft_data_field old b) <= len b.
Proof. intros old b z r H. pose proof (spare_raft_data old b z r H). lia. Qed.
Print Assumptions C171_raft_data_room_partial.

(* The full claim, false below: room is made for no more strings than there are bytes. It holds where the read
   ends without an error; missing is the case of an error. *)
(** Partial; the full statement is at [C171_version_room_partial]. *)
Theorem C171_slot_info_room_partial : forall old b z r, snd (unmarshal slot_info_field old b) = Some (z, r) ->
  fst (unmarshal slot_info_field old b) <= len b.
Proof. intros old b z r H. pose proof (spare_slot_info old b z r H). lia. Qed.
Print Assumptions C171_slot_info_room_partial.

(* A message of 13 bytes makes room for as many strings as it names, up to 2^32 - 1, before the first of them is
   looked at: 64 GiB for a version, on a metadata server and on an API server alike. *)
Theorem C171_room_refuted : forall n, n < 2 ^ 32 -> exists b, len b = 13 /\
  fst (unmarshal version_field zero_version b) = n /\
  (0 < n -> snd (unmarshal version_field zero_version b) = None).
Proof.
  intros n L. exists (chr 0x81 :: put "locate" (chr 0xdd :: be 4 n)).
  assert (R : read_array (chr 0xdd :: be 4 n) = Some (n, [])).
  { rewrite <- (app_nil_r (chr 0xdd :: be 4 n)). apply arr_head_read.
    rewrite <- (be_holds 4 n L) at 1. apply (H_large _ _ _ 4%nat 0xdd); [cbn; auto|apply be_length]. }
  assert (E : unmarshal version_field zero_version (chr 0x81 :: put "locate" (chr 0xdd :: be 4 n))
     = bind (into (fun x => MkVersion false 0%Z 0%Z 0%Z 0%Z 0%Z 0%Z 0 [] [] x) (read_strings [] (chr 0xdd :: be 4 n)))
         (fun z r => fields version_field (List.length (put "locate" (chr 0xdd :: be 4 n)) - 1) 0 z r)).
  { reflexivity. }
  rewrite E. clear E. unfold read_strings. rewrite R. cbn [List.length strings].
  split; [unfold len; cbn [List.length]; reflexivity|]. rewrite len_nil.
  destruct (n =? 0) eqn:Z0.
  - apply N.eqb_eq in Z0. subst n. split; [reflexivity|lia].
  - apply N.eqb_neq in Z0. destruct (n <=? 0) eqn:Z1; [apply N.leb_le in Z1; lia|]. split; [reflexivity|reflexivity].
Qed.
Print Assumptions C171_room_refuted.

Example C171_cut_nonvacuous : version_ok some_version /\
  snd (unmarshal version_field zero_version (removelast (marshal_version some_version))) = None /\
  snd (unmarshal version_field zero_version (firstn 1 (marshal_version some_version))) = None.
Proof.
  split; [apply C169_version_nonvacuous|]. split; vm_compute; reflexivity.
Qed.

Example C171_range_nonvacuous : version_ok zero_version /\
  snd (unmarshal version_field zero_version (chr 0x81 :: put "store_strategy" (app_int 200))) = None /\
  exists z, snd (unmarshal version_field zero_version (chr 0x81 :: put "store_strategy" (app_int (-128)))) = Some (z, []).
Proof. split; [exact zero_version_ok|]. split; [vm_compute; reflexivity|]. eexists. vm_compute. reflexivity. Qed.

Example C171_room_nonvacuous : exists z, v_locate z <> [] /\
  snd (unmarshal version_field zero_version (marshal_version some_version)) = Some (z, []) /\
  fst (unmarshal version_field zero_version (marshal_version some_version)) = 2.
Proof. exists some_version. split; [discriminate|]. split; vm_compute; reflexivity. Qed.
