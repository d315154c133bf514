(** Signable.v - model of the module part of /repo/src/signable.rs *)
From Verif Require Import Base Algorithms SigningBlock Zip Digest Module.
From Coq Require Import Strings.String.
Open Scope N_scope.

(** src/signable.rs:20-26 [enum FileFormat]. *)
Inductive file_format := FModule | FElf.

(** goblin [ELFMAG]. *)
Definition ELFMAG : bytes := [x7f; x45; x4c; x46].

(** src/signable.rs:245-269 [detect_file_format] on a file with content [file]. *)
Definition detect_file_format (file : bytes) : res file_format :=
  do magic <- read_exact_at file 0 4;
  if beq magic ELFMAG then Ok FElf
  else if beq (takeN 2 magic) (bstr "PK") then Ok FModule
  else match find_eocd file (len file) with
       | Ok _ => Ok FModule
       | Err _ => Err EInvalidFormat
       | Panic => Panic
       end.

(** src/signable.rs:30-37 [struct DigestRegion]; the name is its UTF-8 bytes. *)
Record region := mkRegion { rg_name : bytes; rg_offset : N; rg_size : N }.

(** src/signable.rs:282-301 [<Module as Signable>::digest_regions]. *)
Definition m_digest_regions (p : profile) (m : module) (file : bytes) : res (list region) :=
  do o <- m_get_offsets p m file;
  do n1 <- usub p (fo_stop_content o) (fo_start_content o);
  do n2 <- usub p (fo_stop_cd o) (fo_start_cd o);
  do n3 <- usub p (fo_stop_eocd o) (fo_start_eocd o);
  Ok [mkRegion (bstr "zip_entries") (fo_start_content o) n1;
      mkRegion (bstr "central_directory") (fo_start_cd o) n2;
      mkRegion (bstr "eocd") (fo_start_eocd o) n3].

(** src/signable.rs:307-313 [<Module as Signable>::get_signing_block]. *)
Definition s_get_signing_block (p : profile) (m : module) (file : bytes)
  : res (option signing_block) :=
  match m_get_signing_block p m file with
  | Ok b => Ok (Some b)
  | Err e => if maybe_missing_signature e then Ok None else Err e
  | Panic => Panic
  end.

(** src/signable.rs:234-238 [is_signed]. *)
Definition s_is_signed (p : profile) (m : module) (file : bytes) : bool :=
  match s_get_signing_block p m file with Ok (Some _) => true | _ => false end.

(** src/signable.rs:358-384, the part of [write_with_signature] after [raw_bytes]
    and [eocd] have been determined. *)
Definition s_write_raw (p : profile) (raw : bytes) (e : eocd) (block : bytes) : written :=
  let cd_offset := eo_cd_offset e in
  let eocd_offset := eo_off e in
  if eocd_offset <? cd_offset then ([], Err EInvalidCdOffset)
  else
    let cd_size := eocd_offset - cd_offset in
    match usub p (len raw) eocd_offset with
    | Err x => ([], Err x)
    | Panic => ([], Panic)
    | Ok eocd_size =>
        match get_range raw 0 cd_offset with
        | None => ([], Err ERangeOut)
        | Some header =>
            match get_range raw cd_offset eocd_offset with
            | None => (header ++ block, Err ERangeOut)
            | Some cd =>
                (* [new_cd_offset as u32] *)
                let e' := with_cd_offset e ((cd_offset + len block) mod U32) in
                match debug_assert p (cd_size + eocd_size + cd_offset =? len raw) with
                | Ok _ => (header ++ block ++ cd ++ eocd_to_u8 e', Ok tt)
                | _ => (header ++ block ++ cd, Panic)
                end
            end
        end
    end.

(** src/signable.rs:331-356: the unsigned bytes and their end record. *)
Definition s_source (p : profile) (m : module) (file : bytes) : res (bytes * eocd) :=
  match m_get_signing_block p m file with
  | Ok _ =>
      do raw <- m_get_raw_module p m file;
      do e <- find_eocd raw (len raw);
      Ok (raw, e)
  | Err x =>
      if maybe_missing_signature x then
        do e <- find_eocd file (len file);
        Ok (file, e)
      else Err (ECannotSignCorrupted x)
  | Panic => Panic
  end.

(** src/signable.rs:322-385 [<Module as Signable>::write_with_signature]. *)
Definition s_write_with_signature (p : profile) (m : module) (file : bytes) (b : signing_block)
  : written :=
  match s_source p m file with
  | Err x => ([], Err x)
  | Panic => ([], Panic)
  | Ok (raw, e) => s_write_raw p raw e (block_to_u8 b)
  end.
