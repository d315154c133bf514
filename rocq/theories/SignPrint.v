(** SignPrint.v - what the sign and digest commands print: /repo/src/cli/sign.rs and
    /repo/src/cli/digest.rs, line by line.

    As in Print.v and InfoPrint.v a line is a constructor with the values that are
    printed in it; the wording and the messages of errors are not modelled.
    [println!] itself does not fail (a closed standard output is not modelled). *)
From Verif Require Import Base Utils Algorithms Common SchemeV2 SourceStamp Utf8 ElfInfo SigningBlock
  Zip Digest Module Signable Signer Verifier Keystore Elf Cli.
Open Scope N_scope.

(** * sign: all lines go to the standard output *)
Inductive sline :=
| SStart | SInput (p : path) | SOutput (p : path) | SBlank                     (* 69-72 *)
| SKey | SStampKey                                                             (* 92, 119 *)
| SFormat (f : file_format)                                                         (* 145-149 *)
| SRegions | SRegion (g : region)                                              (* 152-158 *)
| SAlgorithms (n : N) | SCalculating | SDigest (a : algorithms) | SDigested    (* 162-172 *)
| SSigning | SBlock (n : N)                                                    (* 178, 197-200 *)
| SWriting | SSuccess | SOutputFile (p : path).                                (* 203-209 *)

(** Lines, then what the command does to the file system and its result. *)
Definition printed (A : Type) : Type := list sline * (list step * res A).
Definition say {A} (l : list sline) (r : printed A) : printed A := (l ++ fst r, snd r).
(** [?] *)
Definition attempt {A B} (m : res A) (k : A -> printed B) : printed B :=
  match m with Ok x => k x | Err e => ([], ([], Err e)) | Panic => ([], ([], Panic)) end.

(** src/signable.rs:109-115 [format]. *)
Definition signable_format (x : signable) : file_format :=
  match x with SModule _ => FModule | SElf _ => FElf end.

(** src/cli/sign.rs:166-171. *)
Fixpoint digests_print p C rest ds (x : signable) (file : option bytes) (l : list algorithms)
    (done : list (algorithms * bytes)) (k : list (algorithms * bytes) -> printed unit) : printed unit :=
  match l with
  | [] => k done
  | a :: l =>
      say [SDigest a]
        (attempt (signable_digest p C rest ds x file a)
           (fun d => digests_print p C rest ds x file l (done ++ [(a, d)]) k))
  end.

(** src/cli/sign.rs:68-212 [execute].  Where the code returns the error of a part
    ([?]), so does [attempt]. *)
Definition sign_prints (p : profile) (C : crypto) (L : keylib) (rest : bytes -> bool)
    (clk : option N) (ds : algorithms -> nat -> nat -> N) (s : fs) (a : sign_args) : printed unit :=
  let file := fs_read s (sa_input a) in
  say [SStart; SInput (sa_input a); SOutput (sa_output a); SBlank]
  (attempt (do c <- load_credentials L s (sa_v2 a); of_option (ECli 5) c) (fun v2 =>
   say [SKey]
   (attempt (load_credentials L s (sa_stamp a)) (fun stamp =>
    let signer := match stamp with
                  | Some st => ms_with_stamp (config_from_credentials v2) (config_from_credentials st)
                  | None => ms_v2_only (config_from_credentials v2)
                  end in
    say (match stamp with Some _ => [SStampKey] | None => [] end)
    (attempt (do x <- signable_open rest file; choose_sections x (sa_sections a)) (fun x =>
     say [SFormat (signable_format x)]
     (attempt (signable_regions p rest x file) (fun regions =>
      let algos := required_algorithms signer in
      say ([SRegions] ++ map SRegion regions ++ [SAlgorithms (len algos); SCalculating])
      (digests_print p C rest ds x file algos [] (fun l =>
       say [SDigested; SSigning]
       (attempt (do b <- ms_sign p C clk signer (digests_of_pairs l); cli_add_info rest x b) (fun b =>
        say [SBlock (len (block_to_u8 b)); SWriting]
        (if fs_can_create s (sa_output a) then
           let out := fs_file s (sa_output a) in
           let '(w, r) := signable_write p rest x (fs_read (apply s (Truncate out)) (sa_input a)) b in
           (match r with Ok _ => [SSuccess; SOutputFile (sa_output a)] | _ => [] end,
            ([Truncate out; Append out w], r))
         else ([], ([], Err (ECli 6)))))))))))))))).

(** * digest *)

(** On the standard error, but for the digest itself. *)
Inductive dline :=
| DFile (p : path) | DFormat (f : file_format)                                      (* digest.rs:74-75 *)
| DRegions | DRegion (g : region) | DTotal (n : N) | DBlank                    (* 79-89 *)
| DDumped (n : N) (p : path)                                                   (* 157-161 *)
| DAlgorithm (sha512 : bool)                                                   (* 104-105 *)
| DDigest (text : bytes).                                                      (* 119, standard output *)

(** src/cli/digest.rs:80-87: a line for every region, and the sum of the sizes. *)
Fixpoint regions_print (p : profile) (l : list region) (total : N) : list dline * res N :=
  match l with
  | [] => ([], Ok total)
  | g :: l =>
      match uadd p total (rg_size g) with
      | Ok n => let '(d, r) := regions_print p l n in (DRegion g :: d, r)
      | Err e => ([DRegion g], Err e)
      | Panic => ([DRegion g], Panic)
      end
  end.

(** src/cli/digest.rs:136, 152: the number of bytes reported by a dump that succeeds;
    u64, wraps in the release build. *)
Fixpoint copied (p : profile) (l : list region) (total : N) : N :=
  match l with
  | [] => total
  | g :: l => match uadd p total (rg_size g) with Ok n => copied p l n | _ => 0 end
  end.

(** src/cli/digest.rs:53-122 [execute] with 125-164 [dump_regions]. *)
Definition digest_prints (p : profile) (C : crypto) (rest : bytes -> bool) (base64 : bytes -> bytes)
    (ds : algorithms -> nat -> nat -> N) (s : fs) (a : digest_args) : list dline * (list step * res unit) :=
  let file := fs_read s (da_input a) in
  match (do x <- signable_open rest file; choose_sections x (da_sections a)) with
  | Err e => ([], ([], Err e))
  | Panic => ([], ([], Panic))
  | Ok x =>
      let l1 := [DFile (da_input a); DFormat (signable_format x)] in
      match signable_regions p rest x file with
      | Err e => (l1, ([], Err e))
      | Panic => (l1, ([], Panic))
      | Ok regions =>
          let '(rl, total) := regions_print p regions 0 in
          let l2 := l1 ++ [DRegions] ++ rl in
          match total with
          | Ok total =>
              let l2 := l2 ++ [DTotal total; DBlank] in
              match da_dump a with
              | Some out =>
                  let '(w, r) := dump_regions p s (da_input a) out regions in
                  (l2 ++ match r with Ok _ => [DDumped (copied p regions 0) out] | _ => [] end, (w, r))
              | None =>
                  let l3 := l2 ++ [DAlgorithm (da_sha512 a)] in
                  match signable_digest p C rest ds x file
                          (if da_sha512 a then ECDSA_SHA2_512 else ECDSA_SHA2_256) with
                  | Ok d => (l3 ++ [DDigest (match da_format a with Hex => hex_encode d | Base64 => base64 d end)],
                             ([], Ok tt))
                  | Err e => (l3, ([], Err e))
                  | Panic => (l3, ([], Panic))
                  end
              end
          | Err e => (l2, ([], Err e))
          | Panic => (l2, ([], Panic))
          end
      end
  end.
