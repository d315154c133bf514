(** PropDigestRace.v - C97: digests of a module that other processes change while it
    is being read.

    [digest_module_r], [m_digest_r] (DigestRace.v): every single read of the file may
    see another content; [V r k] is what the [k]-th read of region [r] sees, any
    contents at all.  DigestRaceSpec.v: [mixture_of], [in_place], [in_order],
    [digested], [block_may_differ]; ZipSpec.v: [with_block], [digest_messages], [clash]. *)
From Verif Require Import Base BaseFacts Utils Algorithms Common SigningBlock Zip Digest Module ZipSpec Spec ModuleFacts PropModule Toy
  DigestRace DigestRaceSpec DigestRaceFacts DigestRaceFacts2.
From Coq Require Import Strings.String Lia.
Open Scope N_scope.
Open Scope list_scope.

(** * C97 *)
(** If the file keeps its length, the digest is the one of a mixture: a file in which
    every byte stands where it stood in the file at some moment. *)
Theorem C97_mixture : forall p C sched V fuel o a L d, in_place V L -> in_order o ->
  digest_module_r p C sched V fuel o a = Some (Ok d) ->
  exists g, len g = L /\ mixture_of V g /\ digest_module p C sched g o a = Ok d.
Proof. exact mixture. Qed.
Print Assumptions C97_mixture.

(** ... and reading comes to an end. *)
Theorem C97_ends : forall p C sched V fuel o a L, in_place V L -> (N.to_nat L < fuel)%nat ->
  digest_module_r p C sched V fuel o a <> None.
Proof. exact finishes. Qed.
Print Assumptions C97_ends.

(** Changes at places that are not digested have no effect, whatever happens to the
    length before them. *)
Theorem C97_elsewhere : forall p C sched V fuel o a f,
  fo_start_content o <= fo_stop_content o -> fo_start_cd o <= fo_stop_cd o ->
  (forall r k i, digested o i -> nth_error (V r k) i = nth_error f i) -> (List.length f < fuel)%nat ->
  digest_module_r p C sched V fuel o a = Some (digest_module p C sched f o a).
Proof. exact stable. Qed.
Print Assumptions C97_elsewhere.

(** In particular, a signing block that is rewritten while the digest of the archive is
    computed does not change the digest. *)
Theorem C97_block : forall p C sched V fuel z b a, built_block b -> let raw := block_to_u8 b in zip_ok z raw -> zip_small z raw ->
  (forall r k, block_may_differ z raw (V r k)) -> (List.length (with_block z raw) < fuel)%nat ->
  m_digest_r p C sched V fuel (module_new (with_block z raw)) (with_block z raw) a =
  Some (m_digest p C sched (module_new (with_block z raw)) (with_block z raw) a).
Proof. intros p C sched V fuel z b a B raw Hz Hs. exact (signed_stable p C sched V fuel z raw _ a Hz Hs (proj1 (built_block_bytes b B))). Qed.
Print Assumptions C97_block.

(** If the digest of the changing file is the one of the signed archive, then what was
    read is the signed archive (but for block and directory offset), or two messages
    with the same hash are known. *)
Theorem C97_binding : forall p C sched V fuel z b a d n, built_block b -> let raw := block_to_u8 b in zip_ok z raw -> zip_small z raw -> fills sched ->
  0 < n -> (forall v, len (hash C a v) = n) -> len (with_block z raw) < 2 ^ 63 -> in_place V (len (with_block z raw)) ->
  m_digest p C sched (module_new (with_block z raw)) (with_block z raw) a = Ok d ->
  m_digest_r p C sched V fuel (module_new (with_block z raw)) (with_block z raw) a = Some (Ok d) ->
  exists entries block cd record, let g := entries ++ block ++ cd ++ record in mixture_of V g /\
    len entries = len (z_entries z) /\ len block = len raw /\ len cd = len (z_cd z) /\ len g = len (with_block z raw) /\
    ((exists m1 m2, digest_messages (hash C a) (z_entries z) (z_cd z) (end_record z (len (z_entries z))) m1 /\
       digest_messages (hash C a) entries cd (takeN 16 record ++ le 4 (len (z_entries z)) ++ dropN 20 record) m2 /\ clash (hash C a) m1 m2) \/
     entries = z_entries z /\ cd = z_cd z /\
     takeN 16 record = EOCD_SIG ++ z_head z /\ dropN 20 record = le 2 (len (z_comment z)) ++ z_comment z).
Proof. intros p C sched V fuel z b a d n B raw Hz Hs. exact (signed_binding p C sched V fuel z raw _ a d n Hz Hs (proj1 (built_block_bytes b B))). Qed.
Print Assumptions C97_binding.

(** ** Examples *)
Definition small_reads (r k : nat) : N := 5.
Definition other_zip : zip := mkZip (bstr "PK" ++ [x03; x04] ++ zeros 20 ++ bstr "HELLO, WORLD") (z_cd ex_zip) (z_head ex_zip) (z_comment ex_zip).
(** Another archive is written over the file after the sixth read. *)
Definition swap (r k : nat) : bytes := match r with O => if (k <? 6)%nat then plain ex_zip else plain other_zip | _ => plain other_zip end.
Definition half_zip : zip := mkZip (bstr "PK" ++ [x03; x04] ++ zeros 20 ++ bstr "hello, WORLD") (z_cd ex_zip) (z_head ex_zip) (z_comment ex_zip).
Definition ex_offsets : file_offsets := match m_get_offsets Debug (module_new (plain ex_zip)) (plain ex_zip) with Ok o => o | _ => mkOffsets 0 0 0 0 0 0 end.
Definition dg (z : zip) : res bytes := m_digest Debug toyC small_reads (module_new (plain z)) (plain z) ECDSA_SHA2_256.
(** The digest is neither the one of the old nor the one of the new file, but of a mixture. *)
Example C97_example :
  in_place swap (len (plain ex_zip)) /\ in_order ex_offsets /\
  digest_module_r Debug toyC small_reads swap 200 ex_offsets ECDSA_SHA2_256 = Some (dg half_zip) /\
  dg half_zip <> dg ex_zip /\ dg half_zip <> dg other_zip /\ (exists d, dg half_zip = Ok d).
Proof.
  split; [intros [|r] k; cbn [swap]; [destruct (k <? 6)%nat|]; reflexivity|].
  split; [vm_compute; repeat split; discriminate|]. split; [vm_compute; reflexivity|].
  split; [vm_compute; discriminate|]. split; [vm_compute; discriminate|]. eexists. vm_compute. reflexivity.
Qed.

(** The block is overwritten again and again while the digest is computed. *)
Definition junk_block : bytes := map (fun _ => x41) (block_to_u8 ex_block).
Definition rewritten_block (r k : nat) : bytes := if Nat.even (r + k) then ex_signed else with_block ex_zip junk_block.
Example C97_block_example :
  built_block ex_block /\ zip_ok ex_zip (block_to_u8 ex_block) /\ zip_small ex_zip (block_to_u8 ex_block) /\ fills fr /\
  (forall v, len (hash toyC ECDSA_SHA2_256 v) = 32) /\ in_place rewritten_block (len ex_signed) /\
  (forall r k, block_may_differ ex_zip (block_to_u8 ex_block) (rewritten_block r k)) /\
  digest_module_r Debug toyC small_reads rewritten_block 300 ex_offsets ECDSA_SHA2_256 <> None /\
  m_digest_r Debug toyC small_reads rewritten_block 300 (module_new ex_signed) ex_signed ECDSA_SHA2_256 =
    Some (m_digest Debug toyC small_reads (module_new ex_signed) ex_signed ECDSA_SHA2_256).
Proof.
  split; [exact ex_block_built|]. split; [zip_ok_tac|]. split; [vm_compute; reflexivity|]. split; [intros i k; vm_compute; discriminate|].
  split; [intros v; apply toy_hash_len|].
  split; [intros r k; unfold rewritten_block; destruct (Nat.even _); reflexivity|].
  split; [intros r k; unfold rewritten_block; destruct (Nat.even _); [exists (block_to_u8 ex_block)|exists junk_block]; split; reflexivity|].
  split; [vm_compute; discriminate|]. vm_compute. reflexivity.
Qed.

(** Without the hypothesis on the length there need not be such a file: the file is
    empty while its contents are read and complete afterwards. *)
Definition truncated (r k : nat) : bytes := match r with O => [] | _ => plain ex_zip end.
Lemma le4_first (n : N) rest : nth_error (le 4 n ++ rest) 0 = nth_error (le 4 n) 0.
Proof. apply nth_error_app1. unfold le. cbn. lia. Qed.
Lemma id_digest_7th g d : digest_module Debug idC fr g ex_offsets ECDSA_SHA2_256 = Ok d -> nth_error d 6 = Some x24.
Proof.
  assert (E : ex_offsets = mkOffsets 0 36 36 50 50 74) by (vm_compute; reflexivity). rewrite E. clear E.
  unfold digest_module, digest_region, digest_eocd. cbn [fo_start_content fo_stop_content fo_start_cd fo_stop_cd fo_start_eocd fo_stop_eocd].
  change (usub Debug 36 0) with (Ok 36). change (usub Debug 50 36) with (Ok 14). change (usub Debug 74 50) with (Ok 24).
  change (seek 0) with (Ok tt). change (seek 36) with (Ok tt). change (seek 50) with (Ok tt). cbn [bind]. change (I64 <=? 24) with false. cbv iota zeta.
  destruct (N.ltb_spec (len (dropN 50 g)) 16) as [|_]; [discriminate|]. destruct (N.ltb_spec (len (dropN 50 g)) 20) as [|L]; [discriminate|]. cbn [bind].
  rewrite len_dropN in L. unfold taken at 1. rewrite dropN_0. assert (L36 : len (takeN 36 g) = 36) by (rewrite len_takeN; lia).
  assert (R : read_chunks (fr 0%nat) (takeN 36 g) = [takeN 36 g]).
  { revert L36. generalize (takeN 36 g). intros x Hx. unfold read_chunks. pose proof (len_length x) as Lx. rewrite Hx in Lx. change (N.to_nat 36) with 36%nat in Lx. rewrite <- Lx.
    rewrite chunks_step by lia. change (N.max 1 (N.min (fr 0%nat 0%nat) CHUNK_SIZE)) with CHUNK_SIZE.
    rewrite takeN_all, dropN_all by (rewrite Hx; vm_compute; discriminate). reflexivity. }
  rewrite R. cbn [map app]. intros [= <-]. unfold digest_final, digest_chunk at 1. rewrite L36. reflexivity.
Qed.
Theorem C97_length_refuted : exists d,
  digest_module_r Debug idC fr truncated 200 ex_offsets ECDSA_SHA2_256 = Some (Ok d) /\
  forall g, digest_module Debug idC fr g ex_offsets ECDSA_SHA2_256 <> Ok d.
Proof.
  eexists. split; [vm_compute; reflexivity|]. intros g H. apply id_digest_7th in H. vm_compute in H. discriminate.
Qed.
Print Assumptions C97_length_refuted.
