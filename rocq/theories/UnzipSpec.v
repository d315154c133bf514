(** UnzipSpec.v - what an unpacker sees of a module: a specification of reading a
    ZIP archive through its central directory (PKWARE's application note, 4.3.7,
    4.3.12, 4.3.16; no ZIP64, one disk).  No part of the program does this. *)
From Verif Require Import Base SigningBlock Zip ZipSpec.

Open Scope N_scope.
Open Scope list_scope.

(** The number in the [k] bytes of [l] from [o]. *)
Definition field (l : bytes) (o k : N) : N := un_le (takeN k (dropN o l)).

(** A central header: 46 bytes, then name, extra field and comment, whose lengths
    are at 28, 30 and 32. *)
Definition central (h : bytes) : Prop :=
  takeN 4 h = [x50; x4b; x01; x02] /\ 46 <= len h /\ len h = 46 + field h 28 2 + field h 30 2 + field h 32 2.

(** A file in the archive: its central header, its local header and its data, as
    stored. *)
Record item := mkItem { it_central : bytes; it_local : bytes; it_data : bytes }.

(** [i] is what the header [h] points to in [area], the bytes before the directory.
    The central header has the length of the data at 20 and the offset of the local
    header at 42.  The local header is 30 bytes, then name and extra field, whose
    lengths are at 26 and 28. *)
Definition points (area h : bytes) (i : item) : Prop :=
  it_central i = h /\
  takeN 4 (it_local i) = [x50; x4b; x03; x04] /\ 30 <= len (it_local i) /\
  len (it_local i) = 30 + field (it_local i) 26 2 + field (it_local i) 28 2 /\
  len (it_data i) = field h 20 4 /\
  exists before after, area = before ++ it_local i ++ it_data i ++ after /\ len before = field h 42 4.

(** The archive [f] contains exactly the files [l].  The end record stands at the end
    of the file and is the last one; the directory stands right before it, starts at
    the recorded offset, has the recorded size and the recorded number of headers. *)
Definition unzips (f : bytes) (l : list item) : Prop :=
  exists area headers head comment,
    f = area ++ concat headers ++ EOCD_SIG ++ head ++ le 4 (len area) ++ le 2 (len comment) ++ comment /\
    len head = 12 /\ len comment < U16 /\ len area < U32 /\ last_record f (len area + len (concat headers)) /\
    field head 6 2 = len headers /\ field head 8 4 = len (concat headers) /\
    Forall central headers /\ Forall2 (points area) headers l.

(** A careless unpacker, which does not look at the size of the directory: it takes
    the recorded number of headers from the recorded offset on. *)
Definition unzips_careless (f : bytes) (l : list item) : Prop :=
  exists area headers more head comment,
    f = area ++ concat headers ++ more ++ EOCD_SIG ++ head ++ le 4 (len area) ++ le 2 (len comment) ++ comment /\
    len head = 12 /\ len comment < U16 /\ len area < U32 /\ last_record f (len area + len (concat headers) + len more) /\
    field head 6 2 = len headers /\
    Forall central headers /\ Forall2 (points area) headers l.
