(** The cache of extension definitions: /repo/src/opyenxes/extension/XExtensionManager.py,
    utils/XRuntimeUtils.py. *)
From Coq Require Import String NArith ZArith List Bool.
From Verif Require Import Base.PyBase Base.Codec Model.Registry.
Import ListNotations.
Local Open Scope N_scope.

(** ** Folders and files *)

(** sys.platform, and the characters that separate the parts of a path. *)
Definition is_sep (windows : bool) (c : N) : bool := (c =? 47) || (windows && (c =? 92)).
Fixpoint parts_from (windows : bool) (acc s : pystr) : list pystr :=
  match s with
  | [] => match acc with [] => [] | _ => [acc] end
  | c :: r => if is_sep windows c then match acc with [] => [] | _ => [acc] end ++ parts_from windows [] r
              else parts_from windows (acc ++ [c]) r
  end.
(** Simplification: [.], [..], drives and links are like other names; a relative path starts
    at the root. *)
Definition parts (windows : bool) (s : pystr) : list pystr := parts_from windows [] s.

Definition path : Type := list pystr.
Fixpoint path_eqb (a b : path) : bool :=
  match a, b with
  | [], [] => true
  | x :: a, y :: b => str_eqb x y && path_eqb a b
  | _, _ => false
  end.
Record fsys : Type := mk_fs { f_dirs : list path; f_files : list (path * bytes) }.
Definition is_dir (fs : fsys) (p : path) : bool := match p with [] => true | _ => existsb (path_eqb p) (f_dirs fs) end.
Definition file_at (fs : fsys) (p : path) : option bytes := dict_get path_eqb p (f_files fs).
Definition is_file (fs : fsys) (p : path) : bool := match file_at fs p with Some _ => true | None => false end.
Definition present (fs : fsys) (p : path) : bool := is_dir fs p || is_file fs p.

(** os.makedirs without [exist_ok]: the missing folders on the way, but the last must be
    missing.  Simplification: everything may be written. *)
Fixpoint prefixes (p : path) : list path :=
  match p with [] => [] | x :: r => [x] :: map (cons x) (prefixes r) end.
Definition makedirs (fs : fsys) (p : path) : res fsys :=
  if present fs p || existsb (is_file fs) (prefixes p) then Raise OSError
  else Ok (mk_fs (f_dirs fs ++ filter (fun q => negb (present fs q)) (prefixes p)) (f_files fs)).

(** os.listdir: the names of files and folders in a folder. *)
Definition name_in (p q : path) : list pystr :=
  if path_eqb (firstn (List.length p) q) p then match skipn (List.length p) q with [x] => [x] | _ => [] end else [].
Definition listdir (fs : fsys) (p : path) : list pystr :=
  flat_map (name_in p) (f_dirs fs ++ map fst (f_files fs)).

(** open(p, "w"). *)
Definition open_w (fs : fsys) (p : path) : res fsys :=
  match rev p with
  | [] => Raise OSError
  | _ :: r => if is_dir fs p || negb (is_dir fs (rev r)) then Raise OSError
              else Ok (mk_fs (f_dirs fs) (dict_set path_eqb p [] (f_files fs)))
  end.
Definition remove (fs : fsys) (p : path) : fsys := mk_fs (f_dirs fs) (dict_del path_eqb p (f_files fs)).

(** ** XRuntimeUtils *)

(** determine_os: XRuntimeUtils.py:14-26, with [__current_os] and the present sys.platform. *)
Definition determine_os (kept : option pystr) (platform : pystr) : pystr :=
  match kept with None => platform | Some p => p end.
(** is_running_windows, _mac_os_x, _linux, _unix: XRuntimeUtils.py:28-58. *)
Inductive os_test : Type := IsWindows | IsMac | IsLinux | IsUnix.
Definition is_running (t : os_test) (os : pystr) : bool :=
  match t with
  | IsWindows => starts_with (py "win32") os
  | IsMac => starts_with (py "darwin") os
  | IsLinux => starts_with (py "linux") os
  | IsUnix => starts_with (py "freebsd") os || starts_with (py "linux") os || starts_with (py "darwin") os
  end.
(** A history of tests by one object, with sys.platform at the time of each. *)
Fixpoint run_tests (kept : option pystr) (h : list (os_test * pystr)) : list bool :=
  match h with
  | [] => []
  | (t, p) :: r => let os := determine_os kept p in is_running t os :: run_tests (Some os) r
  end.

Section Cache.
(** sys.platform, the variable USERPROFILE, os.path.expanduser. *)
Variables (platform : pystr) (profile : option pystr) (expanduser : pystr -> pystr).

(** is_running_windows, is_running_mac_os_x: XRuntimeUtils.py:28-42. *)
Definition on_windows : bool := is_running IsWindows platform.
Definition on_mac : bool := is_running IsMac platform.

(** get_support_folder: XRuntimeUtils.py:60-76. *)
Definition support_folder (fs : fsys) : res (fsys * pystr) :=
  match profile with
  | None => Raise TypeError                                  (* expanduser(None) *)
  | Some v =>
      let home := expanduser v in
      let dir := if on_windows then home ++ py "\" ++ py "OpenXES"
                 else if on_mac then home ++ py "/Library/Application Support/" ++ py "OpenXES"
                 else home ++ py "/." ++ py "OpenXES" in
      let! fs := makedirs fs (parts on_windows dir) in
      Ok (fs, dir ++ (if on_windows then py "\" else py "/"))
  end.

(** get_extension_cache_folder: XRuntimeUtils.py:78-86. *)
Definition cache_folder (fs : fsys) : fsys * res pystr :=
  match support_folder fs with
  | Raise e => (fs, Raise e)
  | Ok (fs, s) => let dir := s ++ py "ExtensionCache" in
                  match makedirs fs (parts on_windows dir) with
                  | Ok fs => (fs, Ok dir)
                  | Raise e => (fs, Raise e)
                  end
  end.

(** ** XExtensionManager *)

(** request.urlopen and reading all of it. *)
Inductive answer : Type :=
| NoAnswer                                                   (* an OSError, such as URLError *)
| BadRequest (e : exn)                                       (* another exception *)
| Answer (content : bytes).

(** str.endswith, os.path.sep, str.rindex("/") and the slice from there. *)
Definition ends_with (suf s : pystr) : bool := starts_with (rev suf) (rev s).
Definition path_sep : pystr := if on_windows then py "\" else py "/".
Definition from_last_slash (s : pystr) : option pystr :=
  if mem_char 47 s then Some (47 :: rev (before_char 47 (rev s))) else None.

(** cache_extension: XExtensionManager.py:130-161.  The definition is read as bytes and
    written to a text file, which raises TypeError (line 154) unless there is nothing to write. *)
Definition cache_extension (urlopen : pystr -> answer) (fs : fsys) (uri : pystr) : fsys * res unit :=
  match rev uri with
  | [] => (fs, Raise IndexError)                             (* uri_str[-1] *)
  | c :: _ =>
      if c =? 47 then (fs, Raise TypeError)                  (* uri_str[(0, n)] *)
      else match from_last_slash uri with
           | None => (fs, Raise ValueError)                  (* rindex *)
           | Some f =>
               let filename := if ends_with (py ".xesext") f then f else f ++ py ".xesext" in
               match cache_folder fs with
               | (fs, Raise e) => (fs, Raise e)
               | (fs, Ok dir) =>
                   let cache_file := dir ++ path_sep ++ filename in
                   match urlopen uri with
                   | NoAnswer => (fs, Ok tt)                 (* printed *)
                   | BadRequest e => (fs, Raise e)
                   | Answer content =>
                       match open_w fs (parts on_windows cache_file) with
                       | Raise _ => (fs, Ok tt)              (* printed *)
                       | Ok fs => (fs, match content with [] => Ok tt | _ => Raise TypeError end)
                       end
                   end
               end
           end
  end.

(** load_extension_cache: XExtensionManager.py:163-201.  [here] is the current folder: isfile is
    asked about the bare names (line 171).  [old] says that a file is older than thirty days;
    [parse] is XExtensionParser.parse. *)
Context {E : Type} (uri_of : E -> pystr).
Variables (here : path) (old : path -> bool) (parse : bytes -> res E).
Definition load_one (dir : pystr) (fs : fsys) (m : manager E) (name : pystr) : res (fsys * manager E) :=
  if ends_with (py ".xesext") (lower name) then
    let p := parts on_windows (dir ++ path_sep ++ name) in
    match file_at fs p with
    | None => if is_dir fs p && negb (old p) then Ok (fs, m)  (* a folder: cannot be parsed, printed *)
              else Raise OSError                             (* getmtime of nothing, remove of a folder *)
    | Some b =>
        if old p then Ok (remove fs p, m)
        else match parse b with
             | Raise _ => Ok (fs, m)                         (* printed *)
             | Ok x => Ok (fs, if smem (uri_of x) (mg_map m) then m
                               else mk_mgr (sset (uri_of x) x (mg_map m)) (mg_list m ++ [x]))
             end
    end
  else Ok (fs, m).
Fixpoint load_all (dir : pystr) (fs : fsys) (m : manager E) (names : list pystr) : fsys * manager E * res unit :=
  match names with
  | [] => (fs, m, Ok tt)
  | n :: r => match load_one dir fs m n with
              | Ok (fs, m) => load_all dir fs m r
              | Raise e => (fs, m, Raise e)
              end
  end.
Definition load_cache (fs : fsys) (m : manager E) : fsys * manager E * res unit :=
  match cache_folder fs with
  | (fs, Raise e) => (fs, m, Raise e)
  | (fs, Ok dir) =>
      load_all dir fs m (filter (fun n => is_file fs (here ++ parts on_windows n)) (listdir fs (parts on_windows dir)))
  end.

(** Histories of the two calls. *)
Inductive cache_call : Type := CacheExtension (uri : pystr) (urlopen : pystr -> answer) | LoadCache.
Definition cache_step (st : fsys * manager E) (c : cache_call) : (fsys * manager E) * res unit :=
  let (fs, m) := st in
  match c with
  | CacheExtension u net => let (fs, r) := cache_extension net fs u in ((fs, m), r)
  | LoadCache => let '(fs, m, r) := load_cache fs m in ((fs, m), r)
  end.
Fixpoint cache_run (st : fsys * manager E) (h : list cache_call) : (fsys * manager E) * list (res unit) :=
  match h with
  | [] => (st, [])
  | c :: h => let (st, r) := cache_step st c in
              let (st, rs) := cache_run st h in (st, r :: rs)
  end.
End Cache.
