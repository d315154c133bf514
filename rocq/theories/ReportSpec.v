(** ReportSpec.v - vocabulary of C72: what a verification report should say about
    a signing block.  Written from the meaning of the fields, without the
    verifier's functions. *)
From Verif Require Import Base Utils Algorithms Common SchemeV2 SourceStamp SigningBlock Verifier VerifySpec.
Open Scope N_scope.

(** The V2 signers of a block in order, each with its position in its V2 value. *)
Definition numbered_signers (b : signing_block) : list (N * signer) :=
  flat_map (fun v => match v with
     | V2Block x => combine (map N.of_nat (seq 0 (List.length (sns_data (v2_signers x))))) (sns_data (v2_signers x))
     | _ => [] end) (bk_content b).

(** The signatures of a V2 signer are looked at in order: [good] are those in
    front that have a digest entry and are accepted; what comes then. *)
Inductive stop := AllDone | NoDigestFor (a : algorithms) | Refused.
Definition scan (C : crypto) (key msg : bytes) (digs : list digest) (sigs good : list signature) (why : stop) : Prop :=
  exists tail, sigs = good ++ tail /\
    Forall (fun g => ~ no_digest digs (sg_algo g) /\ accepted C (sg_algo g) key msg (sg_data g)) good /\
    match why with
    | AllDone => tail = []
    | NoDigestFor a => exists g t, tail = g :: t /\ sg_algo g = a /\ no_digest digs a
    | Refused => exists g t, tail = g :: t /\ ~ no_digest digs (sg_algo g) /\
                   ~ accepted C (sg_algo g) key msg (sg_data g)
    end.
(** The digest stored for the signature's algorithm is not the computed one. *)
Definition mismatching (ctx : option context) (digs : list digest) (g : signature) : Prop :=
  exists c d, ctx = Some c /\ stored_digest digs (sg_algo g) d /\ ~ computed c (sg_algo g) d.
(** The leaf certificate is for another key. *)
Definition foreign (K : pki) (key : bytes) (certs : list certificate) : Prop :=
  exists leaf rest, map ct_data certs = leaf :: rest /\ spki_of K leaf <> Some key.

(** The failure reported for a V2 signer, if any: a foreign certificate first,
    else a refused signature, else a wrong digest. *)
Definition v2_failure (C : crypto) (K : pki) (ctx : option context) (s : signer) (e : option signer_error) : Prop :=
  let digs := dgs_data (sd_digests (sn_data s)) in
  let certs := cts_data (sd_certs (sn_data s)) in
  (foreign K (pk_data (sn_key s)) certs /\ e = Some SEBinding) \/
  (~ foreign K (pk_data (sn_key s)) certs /\
   exists good why, scan C (pk_data (sn_key s)) (v2_message s) digs (sgs_data (sn_sigs s)) good why /\
     ((why = Refused /\ exists x, e = Some (SESignature x)) \/
      (why <> Refused /\ Exists (mismatching ctx digs) good /\ e = Some SEDigest) \/
      (why <> Refused /\ ~ Exists (mismatching ctx digs) good /\ e = None))).

(** The same for a stamp, where a signature without a digest entry is passed over. *)
Definition stamp_failure (C : crypto) (K : pki) (ctx : option context) (s : stamp_block) (e : option signer_error) : Prop :=
  let digs := dgs_data (st_digests (sb_data s)) in
  let certs := cts_data (st_certs (sb_data s)) in
  let ok := fun g => accepted C (sg_algo g) (pk_data (sb_key s)) (stamp_message s) (sg_data g) in
  (foreign K (pk_data (sb_key s)) certs /\ e = Some SEBinding) \/
  (~ foreign K (pk_data (sb_key s)) certs /\
   ((Exists (fun g => ~ ok g) (sgs_data (sb_sigs s)) /\ exists x, e = Some (SESignature x)) \/
    (Forall ok (sgs_data (sb_sigs s)) /\ Exists (mismatching ctx digs) (sgs_data (sb_sigs s)) /\ e = Some SEDigest) \/
    (Forall ok (sgs_data (sb_sigs s)) /\ ~ Exists (mismatching ctx digs) (sgs_data (sb_sigs s)) /\ e = None))).

(** Why a leaf certificate that is not trusted is not trusted. *)
Definition chain_problem (K : pki) (now : option N) (roots : list bytes) (leaf : bytes) (inter : list bytes)
    (w : warning) : Prop :=
  let by_path x := roots <> [] /\ ee_parse K leaf = true /\ path K (anchors K roots) leaf inter (time_of now) = x in
  match w with
  | WNoRoots => roots = []
  | WParseEe => roots <> [] /\ ee_parse K leaf = false
  | WExpired => by_path PathExpired
  | WNotYetValid => by_path PathNotYetValid
  | WUnknownIssuer => by_path PathUnknownIssuer
  | WNoEku => by_path PathNoEku
  | WChainFailed => by_path PathOther
  | _ => False
  end.

(** What the entry [r] says about the certificates; [note] are the warnings about
    them.  [use] are the certificates after the leaf that are used and reported. *)
Definition certificate_entry (K : pki) now (roots : list bytes) (certs : list certificate)
    (use : list bytes -> list bytes) (r : signer_result) (note : list warning) : Prop :=
  match map ct_data certs with
  | [] => sr_cert r = None /\ sr_chain r = [] /\ sr_chain_valid r = false /\ sr_trusted r = false /\ note = []
  | leaf :: rest =>
      sr_cert r = Some leaf /\ sr_chain r = use rest /\
      (sr_trusted r = true <-> trusted K now roots leaf (use rest)) /\
      (sr_chain_valid r = true <-> trusted K now roots leaf (use rest) \/
         (issuer_unknown K now roots leaf (use rest) /\ linked K (leaf :: use rest))) /\
      ((trusted K now roots leaf (use rest) /\ note = []) \/
       (~ trusted K now roots leaf (use rest) /\ exists w, note = [w] /\ chain_problem K now roots leaf (use rest) w))
  end.

(** The whole entry [r] for the V2 signer [s] at position [i]. *)
Definition v2_entry (C : crypto) (K : pki) now (roots : list bytes) (ctx : option context)
    (i : N) (s : signer) (r : signer_result) : Prop :=
  sr_index r = i /\ sr_error r = None /\
  exists good why note,
    scan C (pk_data (sn_key s)) (v2_message s) (dgs_data (sd_digests (sn_data s))) (sgs_data (sn_sigs s)) good why /\
    (sr_signature_valid r = true <-> why = AllDone) /\
    (sr_digest_valid r = true <-> ctx <> None /\ good <> []) /\
    certificate_entry K now roots (cts_data (sd_certs (sn_data s))) (fun rest => rest) r note /\
    sr_warnings r =
      (match ctx with None => map (fun _ => WNoContext) good | Some _ => [] end) ++
      (match why with NoDigestFor a => [WNoDigest a] | _ => [] end) ++ note.

(** The entry for a stamp: no intermediate certificates. *)
Definition stamp_entry (C : crypto) (K : pki) now (roots : list bytes) (ctx : option context)
    (s : stamp_block) (r : signer_result) : Prop :=
  let has_digest g := ~ no_digest (dgs_data (st_digests (sb_data s))) (sg_algo g) in
  sr_index r = 0 /\ sr_error r = None /\ sr_signature_valid r = true /\
  (sr_digest_valid r = true <-> ctx <> None /\ Exists has_digest (sgs_data (sb_sigs s))) /\
  exists about note,
    ((ctx = None /\ about = [WStampNoContext]) \/
     (ctx <> None /\ ~ Exists has_digest (sgs_data (sb_sigs s)) /\ about = [WStampNoDigest]) \/
     (ctx <> None /\ Exists has_digest (sgs_data (sb_sigs s)) /\ about = [])) /\
    certificate_entry K now roots (cts_data (st_certs (sb_data s))) (fun _ => []) r note /\
    sr_warnings r = about ++ note.

(** The summary: flags that hold for every entry, certificate and chain of the
    first entry, and the warnings of all entries, those of the first labelled 1
    and so on. *)
Definition summary (r : verify_result) : Prop :=
  let l := vr_signers r in
  l <> [] /\
  (vr_signature_valid r = true <-> Forall (fun s => sr_signature_valid s = true) l) /\
  (vr_digest_valid r = true <-> Forall (fun s => sr_digest_valid s = true) l) /\
  (vr_chain_valid r = true <-> Forall (fun s => sr_chain_valid s = true) l) /\
  (vr_trusted r = true <-> Forall (fun s => sr_trusted s = true) l) /\
  (forall first others, l = first :: others -> vr_cert r = sr_cert first /\ vr_chain r = sr_chain first) /\
  vr_warnings r = flat_map (fun p => map (fun w => (fst p, w)) (sr_warnings (snd p)))
                    (combine (map N.of_nat (seq 1 (List.length l))) l).
