(** Verifier.v - model of /repo/src/verifier.rs with the [verify] feature on
    (the default build). *)
From Verif Require Import Base Utils Algorithms Common SchemeV2 SourceStamp SigningBlock Signer.
Open Scope N_scope.

(** The outcome of [webpki::EndEntityCert::verify_for_usage]
    (src/verifier.rs:482-511 distinguishes these cases). *)
Inductive path_result :=
| PathOk | PathExpired | PathNotYetValid | PathUnknownIssuer | PathNoEku | PathOther.

(** The external certificate crates (x509_cert, rustls-webpki, pem), as total
    functions that every theorem quantifies over. *)
Record pki := mkPki {
  (* webpki::anchor_from_trusted_cert (src/verifier.rs:341) *)
  anchor_of : bytes -> option bytes;
  (* webpki::EndEntityCert::try_from succeeds (src/verifier.rs:446) *)
  ee_parse : bytes -> bool;
  (* verify_for_usage with the given anchors, leaf, intermediates, time in
     seconds, usage codeSigning (src/verifier.rs:472-480) *)
  path : list bytes -> bytes -> list bytes -> N -> path_result;
  (* Certificate::from_der then spki.to_der() (src/verifier.rs:94-101) *)
  spki_of : bytes -> option bytes;
  (* Certificate::from_der, (issuer, subject) (src/verifier.rs:566-581) *)
  names_of : bytes -> option (bytes * bytes);
  (* pem::parse: tag and contents (src/verifier.rs:361) *)
  pem_parse : bytes -> option (bytes * bytes)
}.

(** src/verifier.rs:90-102 [extract_public_key_from_cert] is [spki_of];
    120-131 [verify_pubkey_binding]. *)
Definition verify_pubkey_binding (K : pki) (signing_pubkey cert : bytes) : bool :=
  match spki_of K cert with
  | None => false
  | Some cert_pubkey => beq signing_pubkey cert_pubkey
  end.

(** The warning strings. *)
Inductive warning :=
| WNoDigest (a : algorithms)       (* src/verifier.rs:717 *)
| WNoContext                       (* 744 *)
| WStampNoContext                  (* 892 *)
| WStampNoDigest                   (* 899 *)
| WNoRoots | WParseEe | WExpired | WNotYetValid | WUnknownIssuer | WNoEku | WChainFailed.
                                   (* verify_chain, 435-509 *)

(** The strings put in [error]. *)
Inductive signer_error :=
| SEInvalidSignedData | SESignature (e : err) | SEDigest | SEBinding.

(** src/verifier.rs:135-154 [struct SignerVerifyResult]. *)
Record signer_result := mkSR {
  sr_index : N; sr_signature_valid : bool; sr_digest_valid : bool; sr_chain_valid : bool;
  sr_trusted : bool; sr_cert : option bytes; sr_chain : list bytes;
  sr_warnings : list warning; sr_error : option signer_error }.

(** src/verifier.rs:158-175 [struct VerifyResult]. *)
Record verify_result := mkVR {
  vr_signers : list signer_result; vr_signature_valid : bool; vr_digest_valid : bool;
  vr_chain_valid : bool; vr_trusted : bool; vr_cert : option bytes; vr_chain : list bytes;
  vr_warnings : list (N * warning) }.

(** src/verifier.rs:16-39 [enum VerifyError], the constructors that are built by
    the modelled code. *)
Inductive verify_error :=
| VNoSignature | VInvalidSignature (e : err) | VMultiSigner (l : list signer_error).

Inductive vres := VOk (r : verify_result) | VErr (e : verify_error).

(** src/verifier.rs:179-184 [struct VerifyAllResult]. *)
Record verify_all := mkAll { va_v2 : vres; va_stamp : vres }.

(** src/verifier.rs:202-205: the two disjuncts. *)
Definition vres_ok (r : vres) : bool :=
  match r with
  | VOk r => vr_signature_valid r && vr_digest_valid r && vr_chain_valid r && vr_trusted r
  | VErr VNoSignature => true
  | VErr _ => false
  end.
(** src/verifier.rs:201-207 [is_valid]. *)
Definition is_valid (a : verify_all) : bool := vres_ok (va_v2 a) && vres_ok (va_stamp a).

(** src/verifier.rs:211-219 [has_v2], [has_source_stamp]. *)
Definition present (r : vres) : bool :=
  match r with VErr VNoSignature => false | _ => true end.
Definition has_v2 (a : verify_all) : bool := present (va_v2 a).
Definition has_source_stamp (a : verify_all) : bool := present (va_stamp a).

(** [enumerate] with 1-based labels (src/verifier.rs:253-261). *)
Fixpoint number {A} (k : N) (l : list A) : list (N * A) :=
  match l with [] => [] | x :: l => (k, x) :: number (k + 1) l end.

(** src/verifier.rs:234-273 [VerifyResult::from_signers]. *)
Definition from_signers (l : list signer_result) : verify_result :=
  match l with
  | [] => mkVR [] false false false false None [] []
  | s :: _ =>
      mkVR l (forallb sr_signature_valid l) (forallb sr_digest_valid l)
        (forallb sr_chain_valid l) (forallb sr_trusted l) (sr_cert s) (sr_chain s)
        (flat_map (fun p => map (fun w => (fst p, w)) (sr_warnings (snd p))) (number 1 l))
  end.

(** src/verifier.rs:282-288 [struct TrustedRoots]. *)
Record trusted_roots := mkRoots { tr_roots : list bytes; tr_anchors : list bytes }.
(** src/verifier.rs:298-304. *)
Definition roots_new : trusted_roots := mkRoots [] [].
(** src/verifier.rs:339-347 [add_root]. *)
Definition add_root (K : pki) (r : trusted_roots) (cert : bytes) : trusted_roots :=
  mkRoots (tr_roots r ++ [cert])
    (match anchor_of K cert with Some a => tr_anchors r ++ [a] | None => tr_anchors r end).
Definition CERTIFICATE_TAG : bytes := [x43;x45;x52;x54;x49;x46;x49;x43;x41;x54;x45].
(** src/verifier.rs:360-367 [add_root_pem]: [None] for an error. *)
Definition add_root_pem (K : pki) (r : trusted_roots) (pem : bytes) : option trusted_roots :=
  match pem_parse K pem with
  | None => None
  | Some (tag, contents) =>
      if beq tag CERTIFICATE_TAG then Some (add_root K r contents) else None
  end.
(** src/verifier.rs:314-329 [with_builtin]: the embedded PEM text is the parameter
    [builtin]. *)
Definition roots_with_builtin (K : pki) (builtin : bytes) : trusted_roots :=
  match add_root_pem K roots_new builtin with Some r => r | None => roots_new end.
(** src/verifier.rs:370-372 [is_direct_root]. *)
Definition is_direct_root (r : trusted_roots) (cert : bytes) : bool :=
  existsb (fun root => beq root cert) (tr_roots r).
(** src/verifier.rs:380-382 [is_empty]. *)
Definition roots_is_empty (r : trusted_roots) : bool :=
  match tr_roots r with [] => true | _ :: _ => false end.

(** src/verifier.rs:574-588, the loop of [validate_chain_structure];
    [issuer] is the issuer of [current_cert]. *)
Fixpoint chain_links (K : pki) (issuer : bytes) (l : list bytes) : bool :=
  match l with
  | [] => true
  | c :: l =>
      match names_of K c with
      | None => false
      | Some (next_issuer, subject) =>
          if beq issuer subject then chain_links K next_issuer l else false
      end
  end.
(** src/verifier.rs:557-589 [validate_chain_structure]. *)
Definition validate_chain_structure (K : pki) (ee : bytes) (inter : list bytes) : bool :=
  match inter with
  | [] => true
  | _ :: _ =>
      match names_of K ee with
      | None => false
      | Some (issuer, _) => chain_links K issuer inter
      end
  end.

(** src/verifier.rs:422-512 [CertChainVerifier::verify_chain].  [now] is the clock
    ([None]: before the epoch, taken as 0). *)
Definition verify_chain (K : pki) (now : option N) (roots : trusted_roots)
    (ee : bytes) (inter : list bytes) : bool * bool * option warning :=
  if roots_is_empty roots then (validate_chain_structure K ee inter, false, Some WNoRoots)
  else if is_direct_root roots ee then (true, true, None)
  else if negb (ee_parse K ee) then (false, false, Some WParseEe)
  else
    let t := match now with Some s => s | None => 0 end in
    match path K (tr_anchors roots) ee inter t with
    | PathOk => (true, true, None)
    | PathExpired => (false, false, Some WExpired)
    | PathNotYetValid => (false, false, Some WNotYetValid)
    | PathUnknownIssuer => (validate_chain_structure K ee inter, false, Some WUnknownIssuer)
    | PathNoEku => (false, false, Some WNoEku)
    | PathOther => (false, false, Some WChainFailed)
    end.

(** src/verifier.rs:607-636 [struct DigestContext]: the [HashMap<u32, Vec<u8>>] is
    an association list; [insert] puts the new binding in front, [get] takes the
    first binding. *)
Definition context := list (N * bytes).
Definition ctx_new : context := [].
Definition add_digest (c : context) (id : N) (d : bytes) : context := (id, d) :: c.
Fixpoint get_digest (c : context) (id : N) : option bytes :=
  match c with
  | [] => None
  | (i, d) :: c => if i =? id then Some d else get_digest c id
  end.
Definition verify_digest (c : context) (id : N) (stored : bytes) : bool :=
  match get_digest c id with
  | None => false
  | Some d => beq d stored
  end.

(** [digests_data.iter().find(|d| d.signature_algorithm_id == *algo)]
    (src/verifier.rs:705-710, 866-871). *)
Definition find_digest (l : list digest) (a : algorithms) : option digest :=
  find (fun d => algo_eqb (dg_algo d) a) l.

(** src/verifier.rs:699-746: the loop over the signatures of one V2 signer.  The
    state is ([sig_valid], [error], [digest_valid], [warnings]); returning
    without the recursive call is [break]. *)
Fixpoint v2_sig_loop (C : crypto) (ctx : option context) (digs : list digest) (pubkey raw : bytes)
    (l : list signature) (error : option signer_error) (digest_valid : bool)
    (warnings : list warning) : bool * option signer_error * bool * list warning :=
  match l with
  | [] => (true, error, digest_valid, warnings)
  | sig :: l =>
      let algo := sg_algo sig in
      match find_digest digs algo with
      | None => (false, error, digest_valid, warnings ++ [WNoDigest algo])
      | Some digest =>
          match algo_verify C algo pubkey raw (sg_data sig) with
          | Ok _ =>
              match ctx with
              | Some ctx =>
                  if negb (verify_digest ctx (u32_of_algo algo) (dg_digest digest))
                  then v2_sig_loop C (Some ctx) digs pubkey raw l (Some SEDigest) false warnings
                  else v2_sig_loop C (Some ctx) digs pubkey raw l error true warnings
              | None =>
                  v2_sig_loop C None digs pubkey raw l error false (warnings ++ [WNoContext])
              end
          | Err e => (false, Some (SESignature e), digest_valid, warnings)
          | Panic => (false, error, digest_valid, warnings) (* [algo_verify] never panics *)
          end
      end
  end.

Definition is_none {A} (o : option A) : bool := match o with None => true | Some _ => false end.
Definition opt_list {A} (o : option A) : list A := match o with None => [] | Some x => [x] end.

(** src/verifier.rs:681-789: one V2 signer, and (751-787) its certificate. *)
Definition verify_v2_signer (C : crypto) (K : pki) (now : option N) (roots : trusted_roots)
    (ctx : option context) (idx : N) (s : signer) : signer_result :=
  let pubkey := pk_data (sn_key s) in
  match get_from_4 (sd_to_u8 (sn_data s)) with
  | None => mkSR idx false false false false None [] [] (Some SEInvalidSignedData)
  | Some raw =>
      let '(sig_valid, error, digest_valid, warnings) :=
        v2_sig_loop C ctx (dgs_data (sd_digests (sn_data s))) pubkey raw (sgs_data (sn_sigs s))
          None false [] in
      let signature_valid := sig_valid && is_none error in
      match cts_data (sd_certs (sn_data s)) with
      | [] => mkSR idx signature_valid digest_valid false false None [] warnings error
      | cert :: rest =>
          if negb (verify_pubkey_binding K pubkey (ct_data cert)) then
            mkSR idx false digest_valid false false (Some (ct_data cert)) [] warnings
              (Some SEBinding)
          else
            let inter := map ct_data rest in
            let '(chain_valid, trusted, chain_error) :=
              verify_chain K now roots (ct_data cert) inter in
            mkSR idx signature_valid digest_valid chain_valid trusted (Some (ct_data cert)) inter
              (warnings ++ opt_list chain_error) error
      end
  end.

(** [signers_data.iter().enumerate()] (src/verifier.rs:680). *)
Fixpoint verify_v2_signers C K now roots ctx (idx : N) (l : list signer) : list signer_result :=
  match l with
  | [] => []
  | s :: l =>
      verify_v2_signer C K now roots ctx idx s ::
      verify_v2_signers C K now roots ctx (idx + 1) l
  end.

(** src/verifier.rs:677-792: all V2 blocks. *)
Definition v2_results C K now roots ctx (content : list value) : list signer_result :=
  flat_map (fun v => match v with
                     | V2Block v2 =>
                         verify_v2_signers C K now roots ctx 0 (sns_data (v2_signers v2))
                     | _ => []
                     end) content.

(** src/verifier.rs:794-808, 942-956: the verdict. *)
Definition verdict (l : list signer_result) : vres :=
  match l with
  | [] => VErr VNoSignature
  | _ :: _ =>
      match flat_map (fun s => opt_list (sr_error s)) l with
      | [] => VOk (from_signers l)
      | failures => VErr (VMultiSigner failures)
      end
  end.

(** src/verifier.rs:670-809 [verify_v2_with_digest]. *)
Definition verify_v2_with_digest C K now roots (b : signing_block) (ctx : option context) : vres :=
  verdict (v2_results C K now roots ctx (bk_content b)).

(** src/verifier.rs:855-886: the loop over the signatures of a stamp.  The state is
    ([sig_valid], [error], [digest_valid], [digest_verified]). *)
Fixpoint stamp_sig_loop (C : crypto) (ctx : option context) (digs : list digest)
    (pubkey raw : bytes) (l : list signature) (error : option signer_error)
    (digest_valid digest_verified : bool) : bool * option signer_error * bool * bool :=
  match l with
  | [] => (true, error, digest_valid, digest_verified)
  | sig :: l =>
      let algo := sg_algo sig in
      match algo_verify C algo pubkey raw (sg_data sig) with
      | Ok _ =>
          match find_digest digs algo, ctx with
          | Some digest, Some c =>
              if negb (verify_digest c (u32_of_algo algo) (dg_digest digest))
              then stamp_sig_loop C ctx digs pubkey raw l (Some SEDigest) false digest_verified
              else stamp_sig_loop C ctx digs pubkey raw l error true true
          | _, _ => stamp_sig_loop C ctx digs pubkey raw l error digest_valid digest_verified
          end
      | Err e => (false, Some (SESignature e), digest_valid, digest_verified)
      | Panic => (false, error, digest_valid, digest_verified) (* [algo_verify] never panics *)
      end
  end.

(** src/verifier.rs:831-937: one source stamp. *)
Definition verify_stamp (C : crypto) (K : pki) (now : option N) (roots : trusted_roots)
    (ctx : option context) (raw : bytes) (sb : stamp_block) : signer_result :=
  let pubkey := pk_data (sb_key sb) in
  let '(sig_valid, error, digest_valid, digest_verified) :=
    stamp_sig_loop C ctx (dgs_data (st_digests (sb_data sb))) pubkey raw
      (sgs_data (sb_sigs sb)) None false false in
  (* 889-901 *)
  let '(digest_valid, warnings) :=
    if is_none ctx then (false, [WStampNoContext])
    else if negb digest_verified && is_none error then (false, [WStampNoDigest])
    else (digest_valid, []) in
  let signature_valid := sig_valid && is_none error in
  match cts_data (st_certs (sb_data sb)) with
  | [] => mkSR 0 signature_valid digest_valid false false None [] warnings error
  | cert :: _ =>
      if negb (verify_pubkey_binding K pubkey (ct_data cert)) then
        mkSR 0 false digest_valid false false (Some (ct_data cert)) [] warnings (Some SEBinding)
      else
        let '(chain_valid, trusted, chain_error) := verify_chain K now roots (ct_data cert) [] in
        mkSR 0 signature_valid digest_valid chain_valid trusted (Some (ct_data cert)) []
          (warnings ++ opt_list chain_error) error
  end.

(** src/verifier.rs:829-940: only the first stamp is processed (the [continue] of
    847, for signed data shorter than 4 bytes, goes on with the next one). *)
Fixpoint stamp_results C K now roots ctx (content : list value) : list signer_result :=
  match content with
  | [] => []
  | StampBlk s :: rest =>
      match get_from_4 (std_to_u8 (sb_data (ss_block s))) with
      | None =>
          mkSR 0 false false false false None [] [] (Some SEInvalidSignedData) ::
          stamp_results C K now roots ctx rest
      | Some raw => [verify_stamp C K now roots ctx raw (ss_block s)]
      end
  | _ :: rest => stamp_results C K now roots ctx rest
  end.

(** src/verifier.rs:822-957 [verify_source_stamp_with_digest]. *)
Definition verify_source_stamp_with_digest C K now roots (b : signing_block) (ctx : option context)
  : vres := verdict (stamp_results C K now roots ctx (bk_content b)).

(** src/verifier.rs:966-973 [verify_source_stamp]. *)
Definition verify_source_stamp C K now roots (b : signing_block) : vres :=
  verify_source_stamp_with_digest C K now roots b None.

(** src/verifier.rs:987-996 [verify_all_with_digest].  Simplification: one clock
    reading for the whole verification. *)
Definition verify_all_with_digest C K now roots (b : signing_block) (ctx : option context)
  : verify_all :=
  mkAll (verify_v2_with_digest C K now roots b ctx)
        (verify_source_stamp_with_digest C K now roots b ctx).

(** src/verifier.rs:1003-1022 [verify_with_digest], [verify_with_roots_and_digest]. *)
Definition verify_with_digest C K now builtin (b : signing_block) (ctx : context) : vres :=
  verify_v2_with_digest C K now (roots_with_builtin K builtin) b (Some ctx).
Definition verify_with_roots_and_digest C K now roots (b : signing_block) (ctx : context) : vres :=
  verify_v2_with_digest C K now roots b (Some ctx).
