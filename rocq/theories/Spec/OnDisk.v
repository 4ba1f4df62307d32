(** Files: when saving must work, and what must be found when loading. *)
From Coq Require Import String NArith List Bool.
From Verif Require Import Base.PyBase Base.Codec Model.FileNames Model.Files.
Import ListNotations.

(** Decoding undoes encoding. *)
Definition lawful (c : codec) : Prop := forall s b, cd_enc c s = Some b -> cd_dec c b = Some s.
Definition lawful_gzip (GZ : Gzip) : Prop := forall b, gunz (gz b) = Some b.

(** The other files are as before. *)
Definition only_at (path : pystr) (d d' : disk) : Prop := forall q, q <> path -> sget q d' = sget q d.

(** The formats with compressed files, and the bytes on the disk. *)
Definition zipped (p : parser) : bool := match p with XesGzip | MxmlGzip => true | Xes | Mxml => false end.
Definition on_disk {GZ : Gzip} (p : parser) (b : bytes) : bytes := if zipped p then gz b else b.

(** What a file holds under the compression.  Two runs of a compressor may put different bytes
    on the disk (gzip writes the time and the name of the file), which are unpacked alike. *)
Definition unpacked {GZ : Gzip} (p : parser) (b : bytes) : option bytes := if zipped p then gunz b else Some b.
Definition same_unpacking (G1 G2 : Gzip) : Prop := forall b, @gunz G1 b = @gunz G2 b.

(** A compressor for examples: a one-byte header. *)
#[export] Instance store_only : Gzip :=
  {| gz := cons 31%N; gunz := fun b => match b with 31%N :: r => Some r | _ => None end |}.
