From Verif Require Import Codec_Model Codec_Proofs.
Local Open Scope N_scope.

(** * C11: the array codec.  [marshal]/[unmarshal] stand for the generated record
    codec; a record is encodable when it is at most 2^31-1 bytes long and its own
    codec reads it back. *)
Theorem C11_array_roundtrip : forall (A : Type) (marshal : A -> option (list N)) (unmarshal : list N -> option A) arr,
  (forall a, In a arr -> exists b, marshal a = Some b /\ N.of_nat (length b) <= 2147483647 /\ unmarshal b = Some a) ->
  exists bytes, encode_array marshal arr = EncOk bytes /\ decode_array unmarshal bytes = DecOk arr.
Proof. exact @encode_decode. Qed.
Print Assumptions C11_array_roundtrip.

Theorem C11_array_reject : forall (A : Type) (marshal : A -> option (list N)) arr,
  (exists a, In a arr /\ (marshal a = None \/ exists b, marshal a = Some b /\ 2147483647 < N.of_nat (length b))) ->
  encode_array marshal arr = EncErr.
Proof. intros A marshal arr H. exact (encode_reject marshal (fun _ => None) arr (repeat 0 max_varint_len32) [] eq_refl H). Qed.
Print Assumptions C11_array_reject.

(** A truncated input makes the decoder panic rather than return an error. *)
Theorem C11_decode_malformed_refuted : forall (A : Type) (unmarshal : list N -> option A),
  exists bytes, decode_array unmarshal bytes = DecPanic.
Proof. intros A unmarshal. exists [1]. reflexivity. Qed.
Print Assumptions C11_decode_malformed_refuted.

(** The header of a short record after a long one keeps a stale byte and is still
    read correctly. *)
Example C11_nonvacuous :
  let arr := [repeat 7 300; [1; 2]; []] in
  match encode_array (fun a => Some a) arr with
  | EncOk bytes => firstn 5 bytes = [172; 2; 0; 0; 0] /\ firstn 5 (skipn 305 bytes) = [2; 2; 0; 0; 0]
                   /\ decode_array (fun b => Some b) bytes = DecOk arr
  | _ => False
  end.
Proof. vm_compute. auto. Qed.

(** * C45: integers stored as keys *)
Theorem C45_int_bytes_roundtrip : forall i, i < 2 ^ 64 ->
  exists b, int_to_bytes i = Some b /\ length b = 10%nat /\ bytes_to_int b = i.
Proof. exact int_bytes_roundtrip. Qed.
Print Assumptions C45_int_bytes_roundtrip.

Example C45_nonvacuous : match int_to_bytes 18446744073709551615 with
  | Some b => bytes_to_int b = 18446744073709551615 | None => False end.
Proof. vm_compute. reflexivity. Qed.
