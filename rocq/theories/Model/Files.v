(** Logs in files: /repo/src/opyenxes/data_out, /repo/src/opyenxes/data_in.  The text layer is
    Model/XmlChars.v; here are the bytes and the file system. *)
From Coq Require Import String NArith List Bool.
From Verif Require Import Base.PyBase Base.PyVal Base.Xml Base.Codec Model.Attr Model.Log Model.Registry
  Model.XesWrite Model.XesRead Model.MxmlWrite Model.MxmlRead Model.XmlText Model.XmlChars Model.FileNames.
Import ListNotations.

(** gzip.open: what closing a written file puts on the disk, and what a reader gets
    ([None]: BadGzipFile, EOFError, zlib.error).  The bytes depend on the time and the version
    of zlib: a parameter. *)
Class Gzip : Type := { gz : bytes -> bytes; gunz : bytes -> option bytes }.

(** Contents by path.  Simplification: permissions, links and directories are left out. *)
Definition disk : Type := sdict bytes.

Section Files.
Context `{FIO : FloatIO} `{GZ : Gzip}.

(** The text given to [out.write]: XesXmlSerializer.py:50-100, XMxmlSerializer.py:48-133. *)
Definition serialize_text (p : parser) (l : xlog) : res pystr :=
  match p with
  | Xes | XesGzip => let! doc := xes_serialize l in
                     match write_xml xes_comments doc with Some t => Ok t | None => Raise ExpatError end
  | Mxml | MxmlGzip => let! doc := mxml_serialize l in
                       match write_xml mxml_comments doc with Some t => Ok t | None => Raise ExpatError end
  end.
Definition compressed (p : parser) : bool :=
  match p with Xes | Mxml => false | XesGzip | MxmlGzip => true end.

(** [with open(path, "w") as out: serializer.serialize(log, out)], where the encoding of text
    files is [loc] (line ends of POSIX).  Plain: XesXmlSerializer.py:97-100,
    XMxmlSerializer.py:130-133.  Compressed, the file is opened again and the bytes are those
    of [str.encode()]: XesXmlGZIPSerializer.py:9-22, XMxmlGZIPSerializer.py:11-24.  Opening
    for writing empties the file; both with statements close it whatever happens. *)
Definition save (loc : codec) (p : parser) (l : xlog) (path : pystr) (d : disk) : disk * res unit :=
  let done := fun b => sset path (if compressed p then gz b else b) d in
  match serialize_text p l with
  | Ok text => match cd_enc (if compressed p then utf8 else loc) text with
               | Some b => (done b, Ok tt)
               | None => (done [], Raise UnicodeError)
               end
  | Raise e => (done [], Raise e)
  end.

(** What a parser leaves behind: the state of its handler. *)
Inductive parsed : Type := PXes (s : pstate) | PMxml (s : mstate).

Variables (mgr : manager xext) (urlparse : pystr -> option pystr) (draw : nat -> N).

(** xml.sax.parse with the handler: XesXmlParser.py:36-50, XMxmlParser.py:43-58.
    Simplification: the document is read as a whole (expat is given pieces; a refused document
    and a failing handler both end in an exception). *)
Definition parse_text (p : parser) (text : pystr) : res parsed :=
  match read_xml text with
  | None => Raise ExpatError
  | Some es => match p with
               | Xes | XesGzip => let! s := xes_run mgr urlparse draw es ps_init in Ok (PXes s)
               | Mxml | MxmlGzip => let! s := mx_run draw es ms_init in Ok (PMxml s)
               end
  end.
(** parse.  A text file is decoded with [loc] and its line ends are translated.  Compressed
    files are opened again by name, and expat decodes the bytes: XesXmlGZIPParser.py:26-38,
    XMxmlGZIPParser.py:24-37.  Simplification: expat is only asked for UTF-8 (the written
    declaration names no encoding). *)
Definition parse_file (loc : codec) (p : parser) (b : bytes) : res parsed :=
  if compressed p then
    match gunz b with
    | None => Raise OSError
    | Some b' => match cd_dec utf8 b' with
                 | None => Raise ExpatError
                 | Some text => parse_text p text
                 end
    end
  else match cd_dec loc b with
       | None => Raise UnicodeError
       | Some text => parse_text p (newlines text)
       end.

(** [with open(path) as file: XUniversalParser.parse(file)]: XUniversalParser.py:25-43. *)
Definition load (loc : codec) (ps : list parser) (path : pystr) (d : disk) : res parsed :=
  match sget path d with
  | None => Raise OSError
  | Some b => universal_parse (fun p => parse_file loc p b) ps path
  end.

End Files.
