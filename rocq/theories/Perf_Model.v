(** Model of the measurements an API server keeps about its own calls: the collector, the
    local store in a bolt file, the shared store in etcd, sums and averages.

    Source: src/common/performance/collector.go 54-187, store.go 21-139, local_store.go
    18-373, etcd_store.go 18-193, config.go 13-19, src/common/util/slices/slices.go
    51-61, src/apiserver/internal/usecase/pool/instance.go 76-93.

    Simplified: a bolt bucket is its sequence number and the list of its pairs in key
    order; a bolt transaction takes effect as a whole; a cursor that deletes and goes on
    visits every pair; measurements with an empty kind or action are left out (no caller
    makes one); the store of a collector is the list of what it has taken, and may
    refuse; the maps of [Average] and [Sum] are lists in order of first appearance (Go's
    order is arbitrary; the theorems do not depend on it); etcd answers every call.  Of
    the keys of the lock that [removeOldKeys] finds under its prefix only that of its
    holder is there; a lease that runs out ends the put that has it. *)
From Verif Require Import Str_Model Util_Model Codec_Model.
Local Open Scope Z_scope.
Local Open Scope list_scope.

(** ** Measurements *)

(** store.go 21-25 [Perform]. *)
Record perf := mk_perf { p_kind : str; p_action : str; p_cost : Z }.

(** [time.Duration]'s arithmetic is that of int64. *)
Definition wrap64 (z : Z) : Z := (z + 2 ^ 63) mod 2 ^ 64 - 2 ^ 63.

(** ** Sums and averages *)

(** [fmt.Sprint(item.KindOf, ".", item.Action)] (store.go 101, 125). *)
Definition group_key (p : perf) : str := p_kind p ++ "."%char :: p_action p.

(** One item of the loop: total and number under its key (store.go 100-104). *)
Fixpoint tally (k : str) (c : Z) (m : list (str * (Z * Z))) : list (str * (Z * Z)) :=
  match m with
  | [] => [(k, (wrap64 c, 1))]
  | (k', (t, n)) :: m' => if str_eq_dec k k' then (k', (wrap64 (t + c), n + 1)) :: m' else (k', (t, n)) :: tally k c m'
  end.

(** The loop (store.go 100-104, 124-127). *)
Definition tallies (l : list perf) : list (str * (Z * Z)) :=
  fold_left (fun m p => tally (group_key p) (p_cost p) m) l [].

(** [sp[0]], [sp[1]] of [strings.Split(k, ".")] (store.go 107-108, 130-131). *)
Definition ungroup (k : str) : str * str :=
  match split_on "."%char k with a :: b :: _ => (a, b) | _ => ([], []) end.

(** [avgSumStore.Sum] on what [Get] gives (store.go 118-139). *)
Definition sum_of (l : list perf) : list perf :=
  map (fun e : str * (Z * Z) => mk_perf (fst (ungroup (fst e))) (snd (ungroup (fst e))) (fst (snd e))) (tallies l).

(** [avgSumStore.Average] on what [Get] gives (store.go 93-116). *)
Definition average_of (l : list perf) : list perf :=
  map (fun e : str * (Z * Z) => mk_perf (fst (ungroup (fst e))) (snd (ungroup (fst e))) (Z.quot (fst (snd e)) (snd (snd e)))) (tallies l).

(** ** The local store *)

(** A bolt bucket of pairs: [NextSequence]'s counter and the pairs in key order. *)
Record bkt := mk_bkt { bk_seq : N; bk_kvs : list (str * list byte) }.

(** A root bucket: nested buckets by name. *)
Definition root := list (str * bkt).

(** The file: the two root buckets (local_store.go 19-20), [None] before the first
    write transaction. *)
Record lstore := mk_ls { ls_act : option root; ls_knd : option root }.

(** A new file. *)
Definition ls_new : lstore := mk_ls None None.

(** [bucket.Put]: in key order, an equal key is replaced. *)
Fixpoint kv_put {V} (k : str) (v : V) (l : list (str * V)) : list (str * V) :=
  match l with
  | [] => [(k, v)]
  | (k', v') :: l' =>
      if str_eq_dec k k' then (k, v) :: l'
      else if str_ltb k k' then (k, v) :: (k', v') :: l'
      else (k', v') :: kv_put k v l'
  end.

(** Lookup by key. *)
Fixpoint kv_get {V} (k : str) (l : list (str * V)) : option V :=
  match l with
  | [] => None
  | (k', v) :: l' => if str_eq_dec k k' then Some v else kv_get k l'
  end.

(** [tx.CreateBucketIfNotExists(rootName)] (local_store.go 52-55). *)
Definition open_root (r : option root) : root := match r with Some r => r | None => [] end.

(** [root.CreateBucketIfNotExists(name)] (local_store.go 59). *)
Definition open_bkt (name : str) (r : root) : bkt :=
  match kv_get name r with Some b => b | None => mk_bkt 0 [] end.

(** [getBucket] in a read transaction with a name (local_store.go 61-72). *)
Definition find_bkt (name : str) (r : option root) : option bkt :=
  match r with Some r => kv_get name r | None => None end.

(** [util.IntToBytes(uint64(item.Cost))] (local_store.go 91). *)
Definition enc_cost (c : Z) : list byte :=
  match int_to_bytes (Z.to_N (c mod 2 ^ 64)) with Some b => b | None => [] end.

(** [time.Duration(util.BytesToInt(v))] (local_store.go 146, 164, 173). *)
Definition dec_cost (b : list byte) : Z := wrap64 (Z.of_N (bytes_to_int b)).

(** One pair put under a new sequence number (local_store.go 93-95, 100-102):
    [fmt.Sprint(name, ".", i)]. *)
Definition put_seq (name : str) (v : list byte) (b : bkt) : bkt :=
  let i := (bk_seq b + 1)%N in
  mk_bkt i (kv_put (name ++ "."%char :: print_N i) v (bk_kvs b)).

(** One round of [LocalStore.Put]'s loop (local_store.go 80-106). *)
Definition ls_put1 (s : lstore) (p : perf) : lstore :=
  let ra := open_root (ls_act s) in
  let rk := open_root (ls_knd s) in
  let v := enc_cost (p_cost p) in
  mk_ls (Some (kv_put (p_action p) (put_seq (p_kind p) v (open_bkt (p_action p) ra)) ra))
        (Some (kv_put (p_kind p) (put_seq (p_action p) v (open_bkt (p_kind p) rk)) rk)).

(** [LocalStore.Put] (local_store.go 75-110). *)
Definition ls_put (s : lstore) (l : list perf) : lstore := fold_left ls_put1 l s.

(** [keyPrefix] (local_store.go 112-118). *)
Definition key_prefix (k : str) : str :=
  match split_on "."%char k with [a; _] => a | _ => [] end.

(** [cur.Seek(k)]: from the first key not below [k] on. *)
Fixpoint seek {V} (k : str) (l : list (str * V)) : list (str * V) :=
  match l with
  | [] => []
  | (k', v) :: l' => if str_ltb k' k then seek k l' else l
  end.

(** The loop over the kind bucket (local_store.go 138-149). *)
Fixpoint take_kind (kind action : str) (l : list (str * list byte)) : list perf :=
  match l with
  | [] => []
  | (k, v) :: l' =>
      let act := key_prefix k in
      if negb (str_eqb action []) && negb (str_eqb act action) then []
      else mk_perf kind act (dec_cost v) :: take_kind kind action l'
  end.

(** [LocalStore.Get] (local_store.go 120-180); [None] is [errNotExist]. *)
Definition ls_get (s : lstore) (kind action : str) : option (list perf) :=
  if negb (str_eqb kind []) then
    match find_bkt kind (ls_knd s) with
    | None => None
    | Some b =>
        Some (take_kind kind action (if str_eqb action [] then bk_kvs b else seek action (bk_kvs b)))
    end
  else if str_eqb action [] then
    match ls_act s with
    | None => None
    | Some r =>
        Some (flat_map (fun e : str * bkt =>
                map (fun kv : str * list byte => mk_perf (key_prefix (fst kv)) (fst kv) (dec_cost (snd kv)))
                    (bk_kvs (snd e))) r)
    end
  else
    match find_bkt action (ls_act s) with
    | None => None
    | Some b => Some (map (fun kv : str * list byte => mk_perf (key_prefix (fst kv)) action (dec_cost (snd kv))) (bk_kvs b))
    end.

(** [bytes.HasPrefix(bk, prefix)]. *)
Fixpoint has_prefix (p s : str) : bool :=
  match p, s with
  | [], _ => true
  | _, [] => false
  | a :: p', b :: s' => if ascii_dec a b then has_prefix p' s' else false
  end.

(** The deleting loop (local_store.go 191-201, 217-227): from [Seek(prefix)] on, as long
    as the key has the prefix. *)
Fixpoint drop_prefix {V} (p : str) (l : list (str * V)) : list (str * V) :=
  match l with
  | [] => []
  | (k, v) :: l' => if has_prefix p k then drop_prefix p l' else l
  end.
Fixpoint del_prefix {V} (p : str) (l : list (str * V)) : list (str * V) :=
  match l with
  | [] => []
  | (k, v) :: l' => if str_ltb k p then (k, v) :: del_prefix p l' else drop_prefix p l
  end.

(** [LocalStore.delete] (local_store.go 182-230) on an opened root. *)
Definition ls_delete (r : root) (nest p : str) : root :=
  let del b := mk_bkt (bk_seq b) (del_prefix p (bk_kvs b)) in
  if str_eqb nest [] then map (fun e : str * bkt => (fst e, del (snd e))) r
  else kv_put nest (del (open_bkt nest r)) r.

(** [LocalStore.Clear] (local_store.go 252-313): success, and the store afterwards.
    [Bucket.Delete] of a name that belongs to a nested bucket is [ErrIncompatibleValue]
    (267, 284), of no pair at all it succeeds; an error rolls the transaction back. *)
Definition ls_clear (s : lstore) (kind action : str) : bool * lstore :=
  match str_eqb kind [], str_eqb action [] with
  | false, true =>
      match find_bkt kind (ls_knd s) with
      | Some _ => (false, s)
      | None => (true, mk_ls (Some (ls_delete (open_root (ls_act s)) action kind)) (Some (open_root (ls_knd s))))
      end
  | true, false =>
      match find_bkt action (ls_act s) with
      | Some _ => (false, s)
      | None => (true, mk_ls (Some (open_root (ls_act s))) (Some (ls_delete (open_root (ls_knd s)) kind action)))
      end
  | false, false =>
      (true, mk_ls (Some (ls_delete (open_root (ls_act s)) action kind))
                   (Some (ls_delete (open_root (ls_knd s)) kind action)))
  | true, true => (true, ls_new)
  end.

(** [LocalStore.Size] (local_store.go 315-373); [Stats().KeyN] is the number of pairs. *)
Definition ls_size (s : lstore) (kind action : str) : Z :=
  match str_eqb kind [], str_eqb action [] with
  | true, false => match find_bkt action (ls_act s) with Some b => Z.of_nat (List.length (bk_kvs b)) | None => 0 end
  | false, true => match find_bkt kind (ls_knd s) with Some b => Z.of_nat (List.length (bk_kvs b)) | None => 0 end
  | true, true =>
      match ls_act s with
      | Some r => fold_right (fun (e : str * bkt) t => Z.of_nat (List.length (bk_kvs (snd e))) + t) 0 r
      | None => 0
      end
  | false, false => match ls_get s kind action with Some l => Z.of_nat (List.length l) | None => 0 end
  end.

(** [Sum] and [Average] of the local store (local_store.go 42, store.go 93-139). *)
Definition ls_sum (s : lstore) (kind action : str) : option (list perf) := option_map sum_of (ls_get s kind action).
Definition ls_average (s : lstore) (kind action : str) : option (list perf) := option_map average_of (ls_get s kind action).

(** What is done to a local store. *)
Inductive lop := LPut (l : list perf) | LClear (kind action : str).
Definition ls_step (s : lstore) (o : lop) : lstore :=
  match o with
  | LPut l => ls_put s l
  | LClear k a => snd (ls_clear s k a)
  end.
Definition ls_run (ops : list lop) : lstore := fold_left ls_step ops ls_new.

(** ** The collector *)

(** config.go 13-19, the fields that matter here. *)
Record pconf := mk_pconf { pc_max : nat; pc_flush : bool }.

(** What is in memory ([memData]), what the store has taken, and the calls of [PutAsync]
    whose goroutines have not run (collector.go 88-93). *)
Record coll := mk_coll { cl_mem : list perf; cl_saved : list perf; cl_pending : list perf }.

(** A collector just made (collector.go 64-77). *)
Definition coll_new : coll := mk_coll [] [] [].

(** [Flush] (collector.go 117-124): [ok] tells whether the store takes the data. *)
Definition flush (ok : bool) (c : coll) : coll :=
  if ok then mk_coll [] (cl_saved c ++ cl_mem c) (cl_pending c) else c.

(** [Put] (collector.go 96-114). *)
Definition cput (cf : pconf) (ok : bool) (p : perf) (c : coll) : coll :=
  let c1 := mk_coll (cl_mem c ++ [p]) (cl_saved c) (cl_pending c) in
  if (pc_max cf <? List.length (cl_mem c1))%nat then
    if pc_flush cf then flush ok c1
    else mk_coll (List.tl (cl_mem c1)) (cl_saved c1) (cl_pending c1)
  else c1.

(** What happens to a collector: a call of [PutAsync]; the goroutine of one of them runs;
    a tick of the auto flush (collector.go 144-153), [due] when the interval has passed
    since the last flush; [Close] (collector.go 126-136).  Each holds the mutex. *)
Inductive cev := EAsync (p : perf) | ERun (i : nat) (ok : bool) | ETick (due ok : bool) | EClose (ok : bool).

Definition cstep (cf : pconf) (c : coll) (e : cev) : coll :=
  match e with
  | EAsync p => mk_coll (cl_mem c) (cl_saved c) (cl_pending c ++ [p])
  | ERun i ok =>
      match nth_error (cl_pending c) i with
      | None => c
      | Some p => cput cf ok p (mk_coll (cl_mem c) (cl_saved c) (firstn i (cl_pending c) ++ skipn (S i) (cl_pending c)))
      end
  | ETick due ok => if due then flush ok c else c
  | EClose ok => flush ok c
  end.
Definition crun (cf : pconf) (es : list cev) (c : coll) : coll := fold_left (cstep cf) es c.

(** The calls of [PutAsync] among the events. *)
Definition calls (es : list cev) : list perf :=
  flat_map (fun e => match e with EAsync p => [p] | _ => [] end) es.

(** ** The shared store *)

Section Etcd.
  (** [time.Duration.String()] (etcd_store.go 82). *)
  Variable dur_string : Z -> str.
  (** [maxSize] (etcd_store.go 19). *)
  Variable max_size : Z.
  (** [allowedActions] (etcd_store.go 26, pool/instance.go 85-88). *)
  Variable allowed : list str.

  (** [etcdPrefix] (etcd_store.go 18). *)
  Definition etcd_prefix : str := s2l "performance-data"%string.

  (** [getKeyPrefix] (etcd_store.go 30-32). *)
  Definition ekey_prefix (action kind : str) : str :=
    etcd_prefix ++ "/"%char :: action ++ "/"%char :: kind.

  (** The key of a measurement put at millisecond [t] (etcd_store.go 81). *)
  Definition ekey (p : perf) (t : Z) : str := ekey_prefix (p_action p) (p_kind p) ++ "/"%char :: print_Z t.

  (** The pairs of etcd, in key order. *)
  Definition ekv := list (str * str).

  (** [slices.Contains] for texts. *)
  Definition contains (a : str) (l : list str) : bool := existsb (str_eqb a) l.

  (** The actions asked for (etcd_store.go 89-92, 135-138, 148-151). *)
  Definition asked (action : str) : list str := if str_eqb action [] then allowed else [action].

  (** [kv.Get] with a prefix. *)
  Definition with_prefix (p : str) (kv : ekv) : ekv := List.filter (fun e => has_prefix p (fst e)) kv.

  (** [Size] (etcd_store.go 147-173) returns without waiting for its goroutines: [seen]
      are the answers that came in before the return. *)
  Definition es_size (seen : list str) (kv : ekv) (kind : str) : Z :=
    fold_right (fun a t => Z.of_nat (List.length (with_prefix (ekey_prefix a kind) kv)) + t) 0 seen.

  (** [removeOldKeys] (etcd_store.go 34-52): the first [limit] keys are read, the range
      from the first of them up to, not including, the last is deleted. *)
  Definition remove_old (limit : Z) (kv : ekv) : ekv :=
    let l := firstn (Z.to_nat limit) (with_prefix etcd_prefix kv) in
    match l with
    | [] => kv
    | (first, _) :: _ =>
        let last := fst (List.last l (first, [])) in
        List.filter (fun e => str_ltb (fst e) first || negb (str_ltb (fst e) last)) kv
    end.

  (** [checkSize] while it has the lock (etcd_store.go 57-66).  [lock] is the key of the
      holder, [performance-data/<lease>] (concurrency.NewLocker, etcd_store.go 191): it is
      among the keys that [removeOldKeys] reads and deletes, and is gone after [Unlock]. *)
  Definition check_size (lock : str) (seen : list str) (added : nat) (kv : ekv) : ekv :=
    let exceed := es_size seen kv [] + Z.of_nat added - max_size in
    if 0 <? exceed
    then List.filter (fun e => negb (str_eqb (fst e) lock)) (remove_old exceed (kv_put lock [] kv))
    else kv.

  (** How a call ends that etcd itself answers; [RWaits] when it waits for the lock. *)
  Inductive presult := ROk | RPanic | RWaits.

  (** A transaction takes one call of [Then]: clientv3 panics at the second
      ("cannot call Then twice!", client/v3 v3.5.11, src/common/go.mod 16).  [n] is the
      number of calls (etcd_store.go 79-83, 139-142). *)
  Definition thens (n : nat) : bool := (n <=? 1)%nat.

  (** The measurements of a put that are stored (etcd_store.go 70-75). *)
  Definition allows (l : list perf) : list perf := List.filter (fun p => contains (p_action p) allowed) l.

  (** The transaction of [Put] (etcd_store.go 79-85): [ts] are the milliseconds at which
      the keys are made. *)
  Definition put_txn (ts : list Z) (al : list perf) (kv : ekv) : presult * ekv :=
    if thens (List.length al)
    then (ROk, fold_left (fun kv (pt : perf * Z) => kv_put (ekey (fst pt) (snd pt)) (dur_string (p_cost (fst pt))) kv)
                         (combine al ts) kv)
    else (RPanic, kv).

  (** The pairs for whose end [es.mux.Lock()] waits (etcd_store.go 55): the locker has the
      prefix of the measurements (etcd_store.go 191), and the mutex of etcd takes the key
      made first under [performance-data/] for its owner and waits until every key made
      before its own is deleted (Mutex.Lock and waitDeletes in package concurrency of
      client/v3 v3.5.11, src/common/go.mod 16). *)
  Definition before_lock (kv : ekv) : ekv := with_prefix (etcd_prefix ++ ["/"%char]) kv.

  (** [EtcdStore.Put] (etcd_store.go 69-86) of an API server that has etcd to itself.  How
      it ends, and the pairs afterwards. *)
  Definition es_put (lock : str) (seen : list str) (ts : list Z) (l : list perf) (kv : ekv) : presult * ekv :=
    match before_lock kv with
    | [] => put_txn ts (allows l) (check_size lock seen (List.length (allows l)) kv)
    | _ => (RWaits, kv)
    end.

  (** [key[idx+1:]] for [idx := strings.LastIndexByte(key, '/')] (etcd_store.go 113-118). *)
  Fixpoint after_slash (s : str) : option str :=
    match s with
    | [] => None
    | c :: s' =>
        match after_slash s' with
        | Some x => Some x
        | None => if ascii_dec c "/"%char then Some s' else None
        end
    end.

  (** [EtcdStore.Get] (etcd_store.go 88-132). *)
  Definition es_get (kv : ekv) (kind action : str) : list perf :=
    flat_map (fun a =>
      flat_map (fun e : str * str =>
        match after_slash (fst e) with
        | Some x => [mk_perf x action (to_int64 (snd e))]
        | None => []
        end) (with_prefix (ekey_prefix a kind) kv)) (asked action).

  (** [EtcdStore.Clear] (etcd_store.go 134-145). *)
  Definition es_clear (kv : ekv) (kind action : str) : presult * ekv :=
    if thens (List.length (asked action))
    then (ROk, fold_left (fun kv a => List.filter (fun e => negb (has_prefix (ekey_prefix a kind) (fst e))) kv) (asked action) kv)
    else (RPanic, kv).

  (** A put on its way (etcd_store.go 69-86): it waits for the lock, has it, or has given
      it back (etcd_store.go 55-56).  [w_olds]: the measurements made before its key of
      the lock that are still there. *)
  Inductive phase := WWaits | WHas | WPast.
  Record way := mk_way { w_id : nat; w_items : list perf; w_phase : phase; w_olds : list str }.

  (** The pairs of etcd without the keys of the lock, and the puts on their way in the
      order of these keys (etcd_store.go 24-28). *)
  Record estate := mk_es { es_kv : ekv; es_ways : list way }.

  (** What API servers do with the shared store, by the number of the server: it asks for
      the lock in a put of [l]; gets it; has checked the size and gives it back; commits;
      ends.  And [Clear]. *)
  Inductive esop :=
  | SAsk (i : nat) (l : list perf)
  | SGrant (i : nat)
  | STrim (i : nat) (seen : list str)
  | SCommit (i : nat) (ts : list Z)
  | SEnd (i : nat)
  | SClear (kind action : str).

  (** The put of server [i], and the others (etcd_store.go 69). *)
  Definition way_of (i : nat) (ws : list way) : option way := List.find (fun w => (w_id w =? i)%nat) ws.
  Definition without (i : nat) (ws : list way) : list way := List.filter (fun w => negb (w_id w =? i)%nat) ws.

  (** Deleted measurements are waited for no longer (waitDeletes, etcd_store.go 55). *)
  Definition still (kv : ekv) (w : way) : way :=
    mk_way (w_id w) (w_items w) (w_phase w) (List.filter (fun k => contains k (map fst kv)) (w_olds w)).

  (** A put has a key of the lock until it gives it back (etcd_store.go 55-56). *)
  Definition keyed (w : way) : bool := match w_phase w with WPast => false | _ => true end.

  (** Is the put of server [i] the first with a key of the lock (etcd_store.go 55)? *)
  Definition first_keyed (i : nat) (ws : list way) : bool :=
    match List.filter keyed ws with w :: _ => (w_id w =? i)%nat | [] => false end.

  (** The put of server [i] goes on (etcd_store.go 55-56). *)
  Definition set_phase (i : nat) (ph : phase) (ws : list way) : list way :=
    map (fun w => if (w_id w =? i)%nat then mk_way (w_id w) (w_items w) ph (w_olds w) else w) ws.

  (** One step (etcd_store.go 54-86, 134-145).  A server has one put at a time: its
      collector calls [Put] under a mutex (collector.go 97, 127, 145).  Steps that cannot
      be taken change nothing. *)
  Definition es_step (lease : nat -> str) (s : estate) (o : esop) : estate :=
    match o with
    | SAsk i l =>
        match way_of i (es_ways s) with
        | None => mk_es (es_kv s) (es_ways s ++ [mk_way i (allows l) WWaits (map fst (before_lock (es_kv s)))])
        | Some _ => s
        end
    | SGrant i =>
        match way_of i (es_ways s) with
        | Some (mk_way _ _ WWaits []) =>
            if first_keyed i (es_ways s) then mk_es (es_kv s) (set_phase i WHas (es_ways s)) else s
        | _ => s
        end
    | STrim i seen =>
        match way_of i (es_ways s) with
        | Some (mk_way _ al WHas _) =>
            let kv := check_size (etcd_prefix ++ "/"%char :: lease i) seen (List.length al) (es_kv s) in
            mk_es kv (map (still kv) (set_phase i WPast (es_ways s)))
        | _ => s
        end
    | SCommit i ts =>
        match way_of i (es_ways s) with
        | Some (mk_way _ al WPast _) => mk_es (snd (put_txn ts al (es_kv s))) (without i (es_ways s))
        | _ => s
        end
    | SEnd i => mk_es (es_kv s) (without i (es_ways s))
    | SClear k a => let kv := snd (es_clear (es_kv s) k a) in mk_es kv (map (still kv) (es_ways s))
    end.
  Definition es_run (lease : nat -> str) (ops : list esop) (s : estate) : estate := fold_left (es_step lease) ops s.

  (** Nothing stored, nobody on the way (etcd_store.go 183-193). *)
  Definition es_new : estate := mk_es [] [].

  (** A collector on the shared store: [Put] ends well; or panics through [Flush]
      (collector.go 119), the goroutine then ends with a panic in spite of
      [graceful.Recover] (collector.go 89, 140; [Panic_Model]), and the API server with it;
      or waits for the lock for good, with the mutex of the collector held (collector.go
      97, 127, 145), since nothing that a server runs deletes a measurement.  [there]: a
      measurement is in etcd. *)
  Inductive shared := Live (there : bool) (c : coll) | Waits (c : coll) | Gone.

  (** Events at the collector, and a measurement that another API server has stored
      (collector.go 83-153, etcd_store.go 84). *)
  Inductive sev := Own (e : cev) | Other.

  (** One transaction takes [l], and stores something (etcd_store.go 79-84). *)
  Definition takes (l : list perf) : bool := thens (List.length (allows l)).
  Definition stores (l : list perf) : bool := (1 <=? List.length (allows l))%nat.

  (** [Flush] of [c] (collector.go 117-124), which leads to [after]. *)
  Definition flush_to (there : bool) (c after : coll) : shared :=
    if there then Waits c else if takes (cl_mem c) then Live (stores (cl_mem c)) after else Gone.

  (** One event (collector.go 83-153). *)
  Definition shared_step (cf : pconf) (s : shared) (e : sev) : shared :=
    match s with
    | Gone => Gone
    | Waits c => match e with Own (EAsync p) => Waits (cstep cf c (EAsync p)) | _ => Waits c end
    | Live there c =>
        match e with
        | Other => Live true c
        | Own (EAsync p) => Live there (cstep cf c (EAsync p))
        | Own (ERun i _) =>
            match nth_error (cl_pending c) i with
            | None => Live there c
            | Some p =>
                if (pc_max cf <? List.length (cl_mem c ++ [p]))%nat && pc_flush cf
                then flush_to there
                       (mk_coll (cl_mem c ++ [p]) (cl_saved c) (firstn i (cl_pending c) ++ skipn (S i) (cl_pending c)))
                       (cstep cf c (ERun i true))
                else Live there (cstep cf c (ERun i true))
            end
        | Own (ETick due _) => if due then flush_to there c (cstep cf c (ETick true true)) else Live there c
        | Own (EClose _) => flush_to there c (cstep cf c (EClose true))
        end
    end.
  Definition shared_run (cf : pconf) (es : list sev) (s : shared) : shared := fold_left (shared_step cf) es s.
End Etcd.
