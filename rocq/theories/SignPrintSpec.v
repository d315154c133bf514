(** SignPrintSpec.v - vocabulary of C78 and C79: the values printed in the lines of
    one kind, in the order of the lines. *)
From Verif Require Import Base Algorithms Common Utf8 ElfInfo SigningBlock Signable Elf Signer Keystore Cli CliSpec SignPrint.
Open Scope N_scope.

Fixpoint pick {A B} (f : A -> option B) (l : list A) : list B :=
  match l with
  | [] => []
  | x :: l => match f x with Some y => y :: pick f l | None => pick f l end
  end.

(** The sign command. *)
Definition region_line (x : sline) : option region := match x with SRegion g => Some g | _ => None end.
Definition digest_line (x : sline) : option algorithms := match x with SDigest a => Some a | _ => None end.
Definition block_line (x : sline) : option N := match x with SBlock n => Some n | _ => None end.
Definition count_line (x : sline) : option N := match x with SAlgorithms n => Some n | _ => None end.
Definition format_line (x : sline) : option file_format := match x with SFormat f => Some f | _ => None end.

(** A section of the list in a signing block as the command lists it. *)
Definition listed (e : section_entry) : region := mkRegion (utf8_enc (en_name e)) (en_offset e) (en_size e).

(** The digest command. *)
Definition dregion_line (x : dline) : option region := match x with DRegion g => Some g | _ => None end.
Definition total_line (x : dline) : option N := match x with DTotal n => Some n | _ => None end.
Definition dumped_line (x : dline) : option (N * path) := match x with DDumped n p => Some (n, p) | _ => None end.
Definition text_line (x : dline) : option bytes := match x with DDigest t => Some t | _ => None end.

(** The lines of the sign command, each with the condition under which it is
    printed: the run got so far. *)
Definition opened_as (rest : bytes -> bool) (file : option bytes) (sections : list rstring) (x : signable) : Prop :=
  exists y, signable_open rest file = Ok y /\ choose_sections y sections = Ok x.
Inductive sign_said p C L rest clk ds (s : fs) (a : sign_args) : sline -> Prop :=
| sd_start : sign_said p C L rest clk ds s a SStart
| sd_input : sign_said p C L rest clk ds s a (SInput (sa_input a))
| sd_output : sign_said p C L rest clk ds s a (SOutput (sa_output a))
| sd_blank : sign_said p C L rest clk ds s a SBlank
| sd_key : forall v, load_credentials L s (sa_v2 a) = Ok (Some v) -> sign_said p C L rest clk ds s a SKey
| sd_stamp_key : forall sg c, cli_signer L s a = Ok sg -> ms_stamp sg = Some c -> sign_said p C L rest clk ds s a SStampKey
| sd_format : forall sg x, cli_signer L s a = Ok sg -> opened_as rest (fs_read s (sa_input a)) (sa_sections a) x ->
    sign_said p C L rest clk ds s a (SFormat (match x with SModule _ => FModule | SElf _ => FElf end))
| sd_region : forall sg x l y, cli_signer L s a = Ok sg -> opened_as rest (fs_read s (sa_input a)) (sa_sections a) x ->
    signable_regions p rest x (fs_read s (sa_input a)) = Ok l ->
    y = SRegions \/ (exists g, In g l /\ y = SRegion g) \/ y = SAlgorithms (len (required_algorithms sg)) \/ y = SCalculating ->
    sign_said p C L rest clk ds s a y
| sd_digest : forall sg x l l1 algo l2 r, cli_signer L s a = Ok sg -> opened_as rest (fs_read s (sa_input a)) (sa_sections a) x ->
    signable_regions p rest x (fs_read s (sa_input a)) = Ok l ->
    required_algorithms sg = l1 ++ algo :: l2 -> cli_digests p C rest ds x (fs_read s (sa_input a)) l1 = Ok r ->
    sign_said p C L rest clk ds s a (SDigest algo)
| sd_digested : forall sg x l r y, cli_signer L s a = Ok sg -> opened_as rest (fs_read s (sa_input a)) (sa_sections a) x ->
    signable_regions p rest x (fs_read s (sa_input a)) = Ok l ->
    cli_digests p C rest ds x (fs_read s (sa_input a)) (required_algorithms sg) = Ok r -> y = SDigested \/ y = SSigning ->
    sign_said p C L rest clk ds s a y
| sd_block : forall x b y, cli_sign_block p C L rest clk ds s a = Ok (x, b) -> y = SBlock (len (block_to_u8 b)) \/ y = SWriting ->
    sign_said p C L rest clk ds s a y
| sd_success : forall y, snd (cli_sign p C L rest clk ds s a) = Ok tt -> y = SSuccess \/ y = SOutputFile (sa_output a) ->
    sign_said p C L rest clk ds s a y.

(** The order of the lines of a complete run. *)
Definition sign_script (a : sign_args) (stamp : bool) (f : file_format) (regions : list region) (algos : list algorithms) (n : N) : list sline :=
  [SStart; SInput (sa_input a); SOutput (sa_output a); SBlank; SKey] ++ (if stamp then [SStampKey] else []) ++
  [SFormat f; SRegions] ++ map SRegion regions ++ [SAlgorithms (len algos); SCalculating] ++ map SDigest algos ++
  [SDigested; SSigning; SBlock n; SWriting; SSuccess; SOutputFile (sa_output a)].

(** The same for the digest command. *)
Inductive digest_said p C rest base64 ds (s : fs) (a : digest_args) : dline -> Prop :=
| dd_file : forall x y, opened_as rest (fs_read s (da_input a)) (da_sections a) x ->
    y = DFile (da_input a) \/ y = DFormat (match x with SModule _ => FModule | SElf _ => FElf end) -> digest_said p C rest base64 ds s a y
| dd_regions : forall x l, opened_as rest (fs_read s (da_input a)) (da_sections a) x ->
    signable_regions p rest x (fs_read s (da_input a)) = Ok l -> digest_said p C rest base64 ds s a DRegions
| dd_region : forall x l1 g l2, opened_as rest (fs_read s (da_input a)) (da_sections a) x ->
    signable_regions p rest x (fs_read s (da_input a)) = Ok (l1 ++ g :: l2) -> p = Release \/ sizes l1 < 2 ^ 64 ->
    digest_said p C rest base64 ds s a (DRegion g)
| dd_total : forall x l y, opened_as rest (fs_read s (da_input a)) (da_sections a) x ->
    signable_regions p rest x (fs_read s (da_input a)) = Ok l -> p = Release \/ sizes l < 2 ^ 64 ->
    y = DTotal (sizes l mod 2 ^ 64) \/ y = DBlank \/ y = DAlgorithm (da_sha512 a) /\ da_dump a = None ->
    digest_said p C rest base64 ds s a y
| dd_dumped : forall x l o, opened_as rest (fs_read s (da_input a)) (da_sections a) x ->
    signable_regions p rest x (fs_read s (da_input a)) = Ok l -> da_dump a = Some o ->
    snd (cli_digest p C rest base64 ds s a) = Ok None -> digest_said p C rest base64 ds s a (DDumped (sizes l mod 2 ^ 64) o)
| dd_digest : forall t, snd (cli_digest p C rest base64 ds s a) = Ok (Some t) -> digest_said p C rest base64 ds s a (DDigest t).

Definition digest_script (a : digest_args) (f : file_format) (regions : list region) (total : N) (text : bytes) : list dline :=
  [DFile (da_input a); DFormat f; DRegions] ++ map DRegion regions ++ [DTotal total; DBlank] ++
  match da_dump a with Some o => [DDumped total o] | None => [DAlgorithm (da_sha512 a); DDigest text] end.
