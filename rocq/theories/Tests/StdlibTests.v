(** Tests, not proofs: the library behaviour assumed in Base/ and in Model/XmlChars.v agrees with
    CPython 3.11 on the inputs below.  The expected results were computed by CPython's own
    standard library; no code of the package was run. *)
From Coq Require Import String NArith ZArith List Bool SpecFloat.
From Verif Require Import Base.Unicode Base.PyBase Base.PyDate Base.PyClock Base.PyZone Base.PyVal Base.PyFloat Base.Codec Base.Xml
  Model.XmlChars Spec.Typing.
Import ListNotations.
Local Open Scope Z_scope.
Local Open Scope N_scope.
Local Open Scope list_scope.

(** ** Comparing results *)
Fixpoint strs_eqb (a b : list pystr) : bool :=
  match a, b with
  | [], [] => true
  | x :: r, y :: s => str_eqb x y && strs_eqb r s
  | _, _ => false
  end.
Definition cmp_eqb (a b : comparison) : bool :=
  match a, b with Lt, Lt | Eq, Eq | Gt, Gt => true | _, _ => false end.
Definition opt_eqb {A} (f : A -> A -> bool) (a b : option A) : bool :=
  match a, b with Some x, Some y => f x y | None, None => true | _, _ => false end.
Definition optZ_eqb := opt_eqb Z.eqb.
Definition optN_eqb := opt_eqb N.eqb.
Definition optstr_eqb := opt_eqb str_eqb.
Definition tz_same (a b : tzone) : bool :=
  Z.eqb (tz_off a) (tz_off b) && optstr_eqb (tz_given_name a) (tz_given_name b).
Definition dt_same (a b : datetime) : bool :=
  Z.eqb (yr a) (yr b) && Z.eqb (mo a) (mo b) && Z.eqb (dy a) (dy b) && Z.eqb (hh a) (hh b)
  && Z.eqb (mi a) (mi b) && Z.eqb (ss a) (ss b) && Z.eqb (us a) (us b) && opt_eqb tz_same (tz a) (tz b).
Definition optdt_eqb := opt_eqb dt_same.
Definition exn_same (a b : exn) : bool :=
  match a, b with TypeError, TypeError | OverflowError, OverflowError | ValueError, ValueError => true | _, _ => false end.
Definition res_same {A} (f : A -> A -> bool) (a b : res A) : bool :=
  match a, b with Ok x, Ok y => f x y | Raise x, Raise y => exn_same x y | _, _ => false end.
(** A zone whose offset is [i] from [a] to [b] and else [o]. *)
Definition summer (a b o i t : Z) : Z := if (Z.leb a t && Z.ltb t b)%bool then i else o.
Definition resdt_eqb := res_same dt_same.
Definition resb_eqb := res_same Bool.eqb.
Definition rescmp_eqb := res_same cmp_eqb.
Definition fl_same (a b : spec_float) : bool :=
  match a, b with
  | S754_zero s, S754_zero t | S754_infinity s, S754_infinity t => Bool.eqb s t
  | S754_nan, S754_nan => true
  | S754_finite s m e, S754_finite t n f => Bool.eqb s t && Pos.eqb m n && Z.eqb e f
  | _, _ => false
  end.
Definition resf_eqb := res_same fl_same.
Definition atts_same (a b : sdict pystr) : bool :=
  strs_eqb (map fst a) (map fst b) && strs_eqb (map snd a) (map snd b).
Definition sax_same (a b : sax) : bool :=
  match a, b with
  | SStart t x, SStart u y => str_eqb t u && atts_same x y
  | SEnd t, SEnd u => str_eqb t u
  | SChars s, SChars r => str_eqb s r
  | _, _ => false
  end.
Fixpoint calls_same (a b : list sax) : bool :=
  match a, b with
  | [], [] => true
  | x :: r, y :: s => sax_same x y && calls_same r s
  | _, _ => false
  end.
Definition optsax_eqb := opt_eqb calls_same.
Fixpoint join_text (l : list sax) : list sax :=
  match l with
  | [] => []
  | SChars s :: r => match join_text r with
                     | SChars t :: q => SChars (s ++ t) :: q
                     | q => SChars s :: q
                     end
  | c :: r => c :: join_text r
  end.
Definition xml_comments : list pystr := [py "one"; py "two - three"].
#[local] Existing Instance no_floats.

(** [s.strip()] *)
Definition cases_strip : list (pystr * pystr) := [
  ([12;28;12288;8232;13;160], []);
  ([98;12;97;8195], [98;12;97]);
  ([9;10;9;13;8203;160], [8203]);
  ([160;12;8232;8287], []);
  ([8287;28;11], []);
  ([97;8287;5760], [97]);
  ([], []);
  ([8232;8232;8203;13;8195;5760], [8203]);
  ([28], []);
  ([], []);
  ([13;31;5760;8232;10], []);
  ([10], []);
  ([133;160;12288;32;5760;32], []);
  ([97;12;8195;12288;31;11], [97]);
  ([8232;31;8287;31;10;98], [98]);
  ([], []);
  ([8232;11;8287;32;5760;31;12], []);
  ([10;98], [98]);
  ([12;97;31], [97]);
  ([10;98;32;10;65279], [98;32;10;65279]);
  ([160], []);
  ([32;97;133;32;8195;8195;11], [97]);
  ([9;97;12;8287;13;10;8232], [97]);
  ([8232;97], [97]);
  ([8203], [8203]);
  ([8195], []);
  ([32;13;65279;65279;5760], [65279;65279]);
  ([11;13;160;13;13;160;65279], [65279]);
  ([98;9], [98]);
  ([28], []);
  ([8195;8195], []);
  ([133;31;9;8195;10;13], []);
  ([11], []);
  ([8203;31;8195;8287;65279;31;11], [8203;31;8195;8287;65279]);
  ([11;8203;8195], [8203]);
  ([12;8287;31;12288;12288;8232], [])
].
Example agree_strip : forallb (fun '(s, r) => str_eqb (strip s) r) cases_strip = true.
Proof. vm_compute. reflexivity. Qed.

(** [c.isspace()] for the characters [strip] removes *)
Definition cases_space : list (N * bool) := [
  (9, true);
  (10, true);
  (11, true);
  (12, true);
  (13, true);
  (28, true);
  (31, true);
  (32, true);
  (133, true);
  (160, true);
  (830, false);
  (1307, false);
  (1664, false);
  (1932, false);
  (1987, false);
  (2719, false);
  (2767, false);
  (2969, false);
  (3510, false);
  (3641, false);
  (4029, false);
  (4109, false);
  (4216, false);
  (4401, false);
  (4875, false);
  (5760, true);
  (6278, false);
  (6597, false);
  (6669, false);
  (6894, false);
  (7848, false);
  (8195, true);
  (8203, false);
  (8232, true);
  (8287, true);
  (8995, false);
  (9030, false);
  (9054, false);
  (9359, false);
  (9614, false);
  (9639, false);
  (9873, false);
  (9874, false);
  (9897, false);
  (10225, false);
  (10369, false);
  (10580, false);
  (11478, false);
  (12054, false);
  (12142, false);
  (12181, false);
  (12288, true);
  (65279, false)
].
Example agree_space : forallb (fun '(c, b) => Bool.eqb (is_space c) b) cases_space = true.
Proof. vm_compute. reflexivity. Qed.

(** [s.lower()] *)
Definition cases_lower : list (pystr * pystr) := [
  ([123;11975], [123;11975]);
  ([234616], [234616]);
  ([28;1118;11226], [28;1118;11226]);
  ([277672;931], [277672;963]);
  ([9230;3359;0;24], [9230;3359;0;24]);
  ([877481;242;1475;9276;298527], [877481;242;1475;9276;298527]);
  ([688], [688]);
  ([9372;203562;861624;394;2761], [9372;203562;861624;599;2761]);
  ([106629;775191;1002], [106629;775191;1003]);
  ([2193;1252], [2193;1253]);
  ([1011342], [1011342]);
  ([308634;54;262783;205241;118], [308634;54;262783;205241;118]);
  ([231029], [231029]);
  ([787;150313;72], [787;150313;104]);
  ([30;1129;714613;103440;10350], [30;1129;714613;103440;10350]);
  ([19;5829;2], [19;5829;2]);
  ([516], [517]);
  ([40;557], [40;557]);
  ([8039;514;68], [8039;515;100]);
  ([197174;113;406;739133;727], [197174;113;617;739133;727]);
  ([5115;729471;1158;98;8729], [5115;729471;1158;98;8729]);
  ([143], [143]);
  ([4;119;12;106;21], [4;119;12;106;21]);
  ([396399;11131;27;103;7179], [396399;11131;27;103;7179]);
  ([530;7165;936384], [531;7165;936384]);
  ([9964;6611;5501;6932;162239], [9964;6611;5501;6932;162239]);
  ([2534], [2534]);
  ([75;473988;902798;659], [107;473988;902798;659]);
  ([17;3939], [17;3939]);
  ([41], [41]);
  ([602;48;7807;138], [602;48;7807;138]);
  ([1415;145520;64057], [1415;145520;64057]);
  ([3035;551442], [3035;551442]);
  ([8484;12113;85], [8484;12113;117]);
  ([53;11150;3653;1103;533537], [53;11150;3653;1103;533537]);
  ([381;48], [382;48])
].
Example agree_lower : forallb (fun '(s, r) => str_eqb (lower s) r) cases_lower = true.
Proof. vm_compute. reflexivity. Qed.

(** [s.lower()] with capital sigmas *)
Definition cases_lower_sigma : list (pystr * pystr) := [
  ([49;931;9398], [49;963;9424]);
  ([46;32;46;46;304;49], [46;32;46;46;105;775;49]);
  ([963;769], [963;769]);
  ([58], [58]);
  ([963], [963]);
  ([8544], [8560]);
  ([32;931;931;9398;688;46], [32;963;963;9424;688;46]);
  ([39;46], [39;46]);
  ([931;8544;32], [963;8560;32]);
  ([173;1161;304;769], [173;1161;105;775;769]);
  ([4057;9398;173;931;304], [4057;9424;173;963;105;775]);
  ([58], [58]);
  ([963;304;8544;58;32;65], [963;105;775;8560;58;32;97]);
  ([304;39], [105;775;39]);
  ([49], [49]);
  ([173], [173]);
  ([39;931;58;304;8544;304;32], [39;963;58;105;775;8560;105;775;32]);
  ([931;173;49], [963;173;49]);
  ([688;32;769;173;58;65], [688;32;769;173;58;97]);
  ([46;9398;65;12354;39], [46;9424;97;12354;39]);
  ([931;58;58], [963;58;58]);
  ([931;931;173;32;931;49;9398], [963;962;173;32;963;49;9424]);
  ([46;12354], [46;12354]);
  ([46;769;9;931;32;39], [46;769;9;963;32;39]);
  ([304;304], [105;775;105;775]);
  ([49;36;931;931;46;49;963], [49;36;963;962;46;49;963]);
  ([173;39;304;963], [173;39;105;775;963]);
  ([173;98;931], [173;98;962]);
  ([769;769;12354;7634], [769;769;12354;7634]);
  ([32], [32]);
  ([9398;931;173], [9424;962;173]);
  ([963], [963]);
  ([12354;32], [12354;32]);
  ([931;931;46], [963;962;46]);
  ([931;46], [963;46]);
  ([963], [963])
].
Example agree_lower_sigma : forallb (fun '(s, r) => str_eqb (lower s) r) cases_lower_sigma = true.
Proof. vm_compute. reflexivity. Qed.

(** [s.split(sep)] *)
Definition cases_split : list (pystr * pystr * list pystr) := [
  ([97;97], [97;98;98;99;98;98;97;98], [[97;98;98;99;98;98;97;98]]);
  ([98], [99;99;98;98;97;97;99;97;99;97], [[99;99];[];[97;97;99;97;99;97]]);
  ([97;97], [98;97;99], [[98;97;99]]);
  ([97], [97;97;97], [[];[];[];[]]);
  ([98], [99;98;97;99;97;99;98], [[99];[97;99;97;99];[]]);
  ([98;97;97], [99], [[99]]);
  ([97;98], [97;98;97], [[];[97]]);
  ([97], [99;99;99;97;99;97;97;97;97;99;97], [[99;99;99];[99];[];[];[];[99];[]]);
  ([97;98;98], [97;97;99;97;97;99;97;99], [[97;97;99;97;97;99;97;99]]);
  ([98;97;98], [97;99;98;98;99;98;97], [[97;99;98;98;99;98;97]]);
  ([98;98;97], [99;99;99;98;97;97;97;98;97;98;98;99], [[99;99;99;98;97;97;97;98;97;98;98;99]]);
  ([98;98;97], [97;98;98;97], [[97];[]]);
  ([97;97;97], [97;99;97;97;97;97;98;98;97;97;98;97], [[97;99];[97;98;98;97;97;98;97]]);
  ([97;98;98], [97;99;97;99;98;97], [[97;99;97;99;98;97]]);
  ([97], [98;97;99;99;97;97;99;97;98;97;98], [[98];[99;99];[];[99];[98];[98]]);
  ([98;97;97], [97;98;97;97;99], [[97];[99]]);
  ([97;98;98], [97;99;97;97;99;97;97;97;98;97;97], [[97;99;97;97;99;97;97;97;98;97;97]]);
  ([98;97;97], [97], [[97]]);
  ([97;97], [97;97;97;99], [[];[97;99]]);
  ([98;97;98], [], [[]]);
  ([97;97], [97;97;97;97;99;97;98], [[];[];[99;97;98]]);
  ([97], [98;99;98;97;99;98;98;97;97;97;98], [[98;99;98];[99;98;98];[];[];[98]]);
  ([98;97;98], [97;99;99;97;98;97], [[97;99;99;97;98;97]]);
  ([98;97;98], [97;97;97;97;99;98;98;98;99;97;98], [[97;97;97;97;99;98;98;98;99;97;98]]);
  ([97;98], [97;98;99;99], [[];[99;99]]);
  ([97], [99;98;97;97;98;98], [[99;98];[];[98;98]]);
  ([98;97], [99;98;97;97;98;97], [[99];[97];[]]);
  ([97], [97;98;97;98;97;97;99;99], [[];[98];[98];[];[99;99]]);
  ([97;97;98], [97;98;99], [[97;98;99]]);
  ([97;97], [97;97;97;97;99;99;98;99;97;97], [[];[];[99;99;98;99];[]]);
  ([97;98;97], [97;97;99;99;97;98;98;99;97], [[97;97;99;99;97;98;98;99;97]]);
  ([98], [98;97;97;97], [[];[97;97;97]]);
  ([98], [], [[]]);
  ([97;98], [97;99], [[97;99]]);
  ([97], [97], [[];[]]);
  ([98], [], [[]])
].
Example agree_split : forallb (fun '(p, s, r) => strs_eqb (split p s) r) cases_split = true.
Proof. vm_compute. reflexivity. Qed.

(** [s.replace(old, new)] *)
Definition cases_replace : list (pystr * pystr * pystr * pystr) := [
  ([98], [98], [99;97;99;99;98;99;98;97;98;98], [99;97;99;99;98;99;98;97;98;98]);
  ([98], [98;99], [98;98], [98;99;98;99]);
  ([97;98], [], [98;97;97;98;99;99;98;98], [98;97;99;99;98;98]);
  ([97;97;98], [], [97;97;97;97;97;97;99;97;99], [97;97;97;97;97;97;99;97;99]);
  ([98], [97;98], [97;97], [97;97]);
  ([97;97;97], [97;99], [97;97;97;99;98;99;99;97], [97;99;99;98;99;99;97]);
  ([97], [], [99;98;99;98;98;98;97;98;99;97;97], [99;98;99;98;98;98;98;99]);
  ([98], [], [], []);
  ([97;98;97], [97], [97], [97]);
  ([97;97], [99], [97;97;98;97;98;98;99;98], [99;98;97;98;98;99;98]);
  ([98], [98], [98;97;97;98;98;99;97;97;97;97;99], [98;97;97;98;98;99;97;97;97;97;99]);
  ([97;98], [97;98], [99;98;97;97;98;98], [99;98;97;97;98;98]);
  ([98;98;97], [98], [98;97;97;99;97;97;99], [98;97;97;99;97;97;99]);
  ([97;98;97], [97], [99;98;98;97;98;97;97;97;97;99;97;97], [99;98;98;97;97;97;97;99;97;97]);
  ([97], [99], [98;99;98;98;99;97;97;98;97;99;97], [98;99;98;98;99;99;99;98;99;99;99]);
  ([97], [97], [], []);
  ([97;98;97], [99], [97], [97]);
  ([97;98], [99], [99;97;97;97;97], [99;97;97;97;97]);
  ([97;98;97], [98;99], [98;97;97;98;99;99;98;97], [98;97;97;98;99;99;98;97]);
  ([97;97;98], [98;98], [97;98;97;97;97;97], [97;98;97;97;97;97]);
  ([97;98], [], [97;98;98;98;99;99;97], [98;98;99;99;97]);
  ([97], [], [99;99;99], [99;99;99]);
  ([98;97;97], [99;99], [97;97;99;97;97;97;99;97;99;99;97], [97;97;99;97;97;97;99;97;99;99;97]);
  ([97], [], [97;97;97;97;98;97;97;97;98], [98;98]);
  ([98;97;97], [99;97], [99;99;97;99], [99;99;97;99]);
  ([98;98;98], [], [99;98;97;99;98;97;98;97;97;97;97], [99;98;97;99;98;97;98;97;97;97;97]);
  ([97], [], [97], []);
  ([98;97;97], [], [97;98;99;99;99;97;99;97;97;99;97], [97;98;99;99;99;97;99;97;97;99;97]);
  ([97], [], [99;97;97;99;99;97;97;98], [99;99;99;98]);
  ([97;97;98], [97;99], [98;99;99;99;97;97;97], [98;99;99;99;97;97;97]);
  ([98], [], [98;97;97;97;98;97;98;99], [97;97;97;97;99]);
  ([98], [], [99], [99]);
  ([98;97], [98;97], [99;99;98], [99;99;98]);
  ([97;97], [97;97], [97;97;97;97;99;97;97;99], [97;97;97;97;99;97;97;99]);
  ([97;97;97], [], [97], [97]);
  ([98], [99], [98;97], [99;97])
].
Example agree_replace : forallb (fun '(o, w, s, r) => str_eqb (replace o w s) r) cases_replace = true.
Proof. vm_compute. reflexivity. Qed.

(** [sep.join(l)] *)
Definition cases_join : list (pystr * list pystr * pystr) := [
  ([32;32], [[98;97];[]], [98;97;32;32]);
  ([32], [[]], []);
  ([], [[];[];[97]], [97]);
  ([], [], []);
  ([45;45], [], []);
  ([], [[98;98;97];[98];[97];[98;97]], [98;98;97;98;97;98;97]);
  ([32;45], [[];[97;97]], [32;45;97;97]);
  ([45;45], [[98];[97;97]], [98;45;45;97;97]);
  ([45;45], [[97]], [97]);
  ([], [], []);
  ([], [], []);
  ([], [[];[];[];[98;97;98]], [98;97;98]);
  ([32], [[]], []);
  ([45;45], [[97;98];[];[98;97;97]], [97;98;45;45;45;45;98;97;97]);
  ([32;45], [[];[97;98;98]], [32;45;97;98;98]);
  ([45;32], [[98]], [98]);
  ([], [[97];[98;97;97];[98;97;98]], [97;98;97;97;98;97;98]);
  ([32;45], [[97;97;98];[98]], [97;97;98;32;45;98]);
  ([45], [[97];[98;98];[97;98];[97]], [97;45;98;98;45;97;98;45;97]);
  ([], [], []);
  ([45], [], []);
  ([32;45], [[97;98]], [97;98]);
  ([32], [[98;98];[98;97];[98];[]], [98;98;32;98;97;32;98;32]);
  ([45], [[]], []);
  ([], [[97;97;97];[98]], [97;97;97;98]);
  ([], [[98;98];[98]], [98;98;98]);
  ([45], [[98;98;98]], [98;98;98]);
  ([45;45], [[98;98;98];[97;97];[98];[98]], [98;98;98;45;45;97;97;45;45;98;45;45;98]);
  ([32;45], [[97;97];[98;98]], [97;97;32;45;98;98]);
  ([32;32], [[98];[97];[98;97]], [98;32;32;97;32;32;98;97]);
  ([], [[97];[];[98]], [97;98]);
  ([], [[97;98];[98;98;97];[]], [97;98;98;98;97]);
  ([45], [[97;97];[98;97;98]], [97;97;45;98;97;98]);
  ([45;32], [[97;98];[98;97;97];[97;98];[97;97]], [97;98;45;32;98;97;97;45;32;97;98;45;32;97;97]);
  ([32], [[98];[98;97;97];[98;97]], [98;32;98;97;97;32;98;97]);
  ([], [[];[97;98];[97;98;98]], [97;98;97;98;98])
].
Example agree_join : forallb (fun '(p, l, r) => str_eqb (join p l) r) cases_join = true.
Proof. vm_compute. reflexivity. Qed.

(** [sub in s] and [s.startswith(sub)] *)
Definition cases_contains : list (pystr * pystr * bool * bool) := [
  ([97], [97;98;97], true, true);
  ([97;97;98], [], false, false);
  ([98;97;97], [99;98;99;97], false, false);
  ([97], [99;98;97;97;97;97;99], true, false);
  ([98;97], [98;99;99;99;97;97;97], false, false);
  ([97], [], false, false);
  ([97;97;97], [97;97;97;99;97;98;97], true, true);
  ([98;98], [98;97], false, false);
  ([98], [97;99;99;97;98], true, false);
  ([97], [98;97;97;98], true, false);
  ([97;98;97], [97;99], false, false);
  ([], [99;97], true, true);
  ([98;97], [97;99;99], false, false);
  ([], [97], true, true);
  ([97], [97;97;97;97;99;99;98;98], true, true);
  ([], [97;97;97;97;97;98;98], true, true);
  ([98;98;98], [98;99;98;98;97], false, false);
  ([97;98;97], [99;97], false, false);
  ([], [97;99;98;98;97;98;97;99], true, true);
  ([], [97;98;99;99;99;97], true, true);
  ([98;97], [99;97;97;99;97;97], false, false);
  ([97], [97;98;99;98], true, true);
  ([98;97;97], [98;99;97;97;97;99;98], false, false);
  ([97;98;97], [], false, false);
  ([98;98;97], [], false, false);
  ([], [97;99;97;98;97;98], true, true);
  ([], [], true, true);
  ([98], [97;98;97], true, false);
  ([98], [97;99;97;97;97;98;99], true, false);
  ([97;98;98], [99;97;97], false, false);
  ([98], [97;98], true, false);
  ([], [], true, true);
  ([98], [97;97;99;97;97], false, false);
  ([98;98], [97;98;97], false, false);
  ([], [97;97;97;97;97;97], true, true);
  ([98;97;97], [97;97;98], false, false)
].
Example agree_contains : forallb (fun '(p, s, c, w) => Bool.eqb (contains p s) c && Bool.eqb (starts_with p s) w) cases_contains = true.
Proof. vm_compute. reflexivity. Qed.

(** Comparison of strings *)
Definition cases_order : list (pystr * pystr * comparison) := [
  ([], [], Eq);
  ([97;97;65536;65535], [65536;97], Lt);
  ([233;97], [], Gt);
  ([], [97;97;97;65535], Lt);
  ([57;233], [], Gt);
  ([57;90;90], [97;65535], Lt);
  ([233], [97;233;97], Gt);
  ([97;97;97], [97], Gt);
  ([90;90;57], [98;98;98], Lt);
  ([65536], [97;97;90], Gt);
  ([], [233;233;90], Lt);
  ([97;97], [97;97], Eq);
  ([], [98;97], Lt);
  ([65536;65535;65535;97], [57;97;233;233], Gt);
  ([97;57;233], [97;90], Lt);
  ([97;90;97;90], [], Gt);
  ([65535;65535;65536], [97], Gt);
  ([], [97;65536;97;65535], Lt);
  ([97;65536;65535], [65535;97;97;65536], Lt);
  ([], [57], Lt);
  ([], [65536;65536;65535], Lt);
  ([97;97;90;90], [98;97;98], Lt);
  ([90], [65535], Lt);
  ([97;57], [97], Gt);
  ([65536;97;65536], [98;97;97;97], Gt);
  ([97;97;98;98], [97;57], Gt);
  ([97;98], [65535;65536;65535], Lt);
  ([65535;65535], [98;97;97], Gt);
  ([233;57;97], [233;57;57], Gt);
  ([98;97;98;97], [97], Gt);
  ([], [], Eq);
  ([65535], [65536], Lt);
  ([97;97;65535], [97;97], Gt);
  ([90;97;97;233], [90;90], Gt);
  ([97;65535], [65535;65535], Lt);
  ([98;97], [], Gt)
].
Example agree_order : forallb (fun '(a, b, c) => cmp_eqb (str_cmp a b) c && Bool.eqb (str_eqb a b) (cmp_eqb c Eq)) cases_order = true.
Proof. vm_compute. reflexivity. Qed.

(** [str(z)] *)
Definition cases_print_int : list (Z * pystr) := [
  ((935335)%Z, [57;51;53;51;51;53]);
  ((-9007199254740994)%Z, [45;57;48;48;55;49;57;57;50;53;52;55;52;48;57;57;52]);
  ((-356207)%Z, [45;51;53;54;50;48;55]);
  ((-5)%Z, [45;53]);
  ((9007199254740988)%Z, [57;48;48;55;49;57;57;50;53;52;55;52;48;57;56;56]);
  ((10056389126928603303)%Z, [49;48;48;53;54;51;56;57;49;50;54;57;50;56;54;48;51;51;48;51]);
  ((0)%Z, [48]);
  ((0)%Z, [48]);
  ((-9007199254740989)%Z, [45;57;48;48;55;49;57;57;50;53;52;55;52;48;57;56;57]);
  ((-30535)%Z, [45;51;48;53;51;53]);
  ((9007199254740989)%Z, [57;48;48;55;49;57;57;50;53;52;55;52;48;57;56;57]);
  ((-10425796756178273193)%Z, [45;49;48;52;50;53;55;57;54;55;53;54;49;55;56;50;55;51;49;57;51]);
  ((-358371489415187481865699468725)%Z, [45;51;53;56;51;55;49;52;56;57;52;49;53;49;56;55;52;56;49;56;54;53;54;57;57;52;54;56;55;50;53]);
  ((9007199254740989)%Z, [57;48;48;55;49;57;57;50;53;52;55;52;48;57;56;57]);
  ((-7242844879830654181)%Z, [45;55;50;52;50;56;52;52;56;55;57;56;51;48;54;53;52;49;56;49]);
  ((-9007199254740992)%Z, [45;57;48;48;55;49;57;57;50;53;52;55;52;48;57;57;50]);
  ((-180687)%Z, [45;49;56;48;54;56;55]);
  ((-16)%Z, [45;49;54]);
  ((14545369881667812523)%Z, [49;52;53;52;53;51;54;57;56;56;49;54;54;55;56;49;50;53;50;51]);
  ((916945)%Z, [57;49;54;57;52;53]);
  ((2785867415021048476)%Z, [50;55;56;53;56;54;55;52;49;53;48;50;49;48;52;56;52;55;54]);
  ((-1)%Z, [45;49]);
  ((-5185347101438913456)%Z, [45;53;49;56;53;51;52;55;49;48;49;52;51;56;57;49;51;52;53;54]);
  ((993087677810645170956543321428)%Z, [57;57;51;48;56;55;54;55;55;56;49;48;54;52;53;49;55;48;57;53;54;53;52;51;51;50;49;52;50;56]);
  ((15)%Z, [49;53]);
  ((13457830462487608232)%Z, [49;51;52;53;55;56;51;48;52;54;50;52;56;55;54;48;56;50;51;50]);
  ((9007199254740989)%Z, [57;48;48;55;49;57;57;50;53;52;55;52;48;57;56;57]);
  ((9007199254740993)%Z, [57;48;48;55;49;57;57;50;53;52;55;52;48;57;57;51]);
  ((-10220081324548463471)%Z, [45;49;48;50;50;48;48;56;49;51;50;52;53;52;56;52;54;51;52;55;49]);
  ((2)%Z, [50]);
  ((-784177)%Z, [45;55;56;52;49;55;55]);
  ((0)%Z, [48]);
  ((2991638299798680524)%Z, [50;57;57;49;54;51;56;50;57;57;55;57;56;54;56;48;53;50;52]);
  ((7)%Z, [55]);
  ((12)%Z, [49;50]);
  ((9007199254740989)%Z, [57;48;48;55;49;57;57;50;53;52;55;52;48;57;56;57])
].
Example agree_print_int : forallb (fun '(z, s) => str_eqb (print_Z z) s) cases_print_int = true.
Proof. vm_compute. reflexivity. Qed.

(** [int(s, 10)] *)
Definition cases_int10 : list (pystr * option Z) := [
  ([102], None);
  ([45;53], (Some (-5)%Z));
  ([], None);
  ([], None);
  ([45;48;120;49;51;28], None);
  ([43;178;2410], None);
  ([54;49;56;50;50;56;54;54;56;56;49;50;57;56;55;57;55;52;50], (Some (6182286688129879742)%Z));
  ([178;95], None);
  ([9;45;48;88;95], None);
  ([102;32;32;103;46], None);
  ([98;51], None);
  ([53;52;48;55;56;52], (Some (540784)%Z));
  ([120790;95;1641], (Some (89)%Z));
  ([178], None);
  ([102;98], None);
  ([2410;120790;65301], (Some (485)%Z));
  ([9;48;53;57;54;56;57], (Some (59689)%Z));
  ([46], None);
  ([50;95;10], None);
  ([95], None);
  ([51;55;57;50], (Some (3792)%Z));
  ([88;54;57;56;10], None);
  ([45;54;54;55;57;50;51;54;54;49;53;48;54;49;54;51;55;53;55;52;48;49;56;51;57;55;51;49;52;50;57], (Some (-667923661506163757401839731429)%Z));
  ([45;1632;120790;43], None);
  ([65301;95], None);
  ([95;98], None);
  ([50;102;51], None);
  ([48;52;51;48;54;48], (Some (43060)%Z));
  ([32;43;48;52;53;95;51;10], (Some (453)%Z));
  ([45;50;48;52;48;49;48;57;55;56;53;52;56;54;54;50;57;57;51;55], (Some (-2040109785486629937)%Z));
  ([43;102;120;103;46], None);
  ([1641], (Some (9)%Z));
  ([45;48;120;48;50;95;55], None);
  ([9312;9312;45;120790], None);
  ([51;53;53;57;55;51;50;53;51;51;51;51;55;49;50;52;53;50;53;49;56;57;53;54;55;57;50;55;51;55], (Some (355973253333712452518956792737)%Z));
  ([1641;43;95;95], None)
].
Example agree_int10 : forallb (fun '(s, r) => optZ_eqb (py_int 10 s) r) cases_int10 = true.
Proof. vm_compute. reflexivity. Qed.

(** [int(s, 16)] *)
Definition cases_int16 : list (pystr * option Z) := [
  ([102;48], (Some (240)%Z));
  ([1632;178], None);
  ([45;54;54;52;57;51;53], (Some (-6703413)%Z));
  ([95;97;11], None);
  ([1641;2410;1632], (Some (2368)%Z));
  ([48;120;56;51;10], (Some (131)%Z));
  ([56], (Some (8)%Z));
  ([49;9312;43], None);
  ([49;1632;65301;43], None);
  ([32;45;88;51;57;49;97], None);
  ([1632], (Some (0)%Z));
  ([50;50;43], None);
  ([51;88;50;46;120], None);
  ([8195;43;88;51;48;53;53;49;10], None);
  ([9;95;48;49], None);
  ([45;57;53;52;50;50;48], (Some (-9781792)%Z));
  ([48;11;102;43], None);
  ([45;57;48;48;55;49;57;57;50;53;52;55;52;48;57;57;49], (Some (-10378291982571407761)%Z));
  ([103], None);
  ([178], None);
  ([45;48;102], (Some (-15)%Z));
  ([120790], (Some (8)%Z));
  ([49;48;55;55;54;52;56;51;51;53;53;54;55;53;52;56;57;49;56;52], (Some (77760268961956953100676)%Z));
  ([1641;1632;45], None);
  ([98;95;45;49], None);
  ([9;45;49], (Some (-1)%Z));
  ([43;48;55;97;52;57;48], (Some (500880)%Z));
  ([45;49;50;57;53;55;50;52;50;48;57;53;54;52;49;51;53;57;55;50;48], (Some (-87759394711971189593888)%Z));
  ([2410;1632;120790;1641], (Some (16521)%Z));
  ([32;45;48;120;49;57;102;57], (Some (-6649)%Z));
  ([95;95], None);
  ([102], (Some (15)%Z));
  ([120790;178], None);
  ([120;54;50;53;53;133], None);
  ([9;88;54;102], None);
  ([95], None)
].
Example agree_int16 : forallb (fun '(s, r) => optZ_eqb (py_int 16 s) r) cases_int16 = true.
Proof. vm_compute. reflexivity. Qed.

(** [b.decode()] *)
Definition cases_utf8_decode : list (bytes * option pystr) := [
  ([194;160;7;244;142;165;162;242;133;55;180;226;130;172], None);
  ([225;151;135;19;156;189;226;191;171;241;137;160;136;226;130;172], None);
  ([241;191;180;167;35;101;205;152], (Some [523559;35;101;856]));
  ([65;144;255], None);
  ([226;130;184], (Some [8376]));
  ([0], (Some [0]));
  ([41;179;163;164;148;226;130;172], None);
  ([226;150;166;225;155;225;145;175;226;130;172], None);
  ([245;241;192;192;193], None);
  ([], (Some []));
  ([117;243;169;135;145;226;172], None);
  ([13;198;190;225;142;154], (Some [13;446;5018]));
  ([226;130;165], (Some [8357]));
  ([193;179;168;167;226;130;172], None);
  ([226;143;171;77;26], (Some [9195;77;26]));
  ([209;140;236;130;172], (Some [1100;49324]));
  ([98;115;226;172], None);
  ([194;157;243;170;191;226;130;172], None);
  ([241;170;186;190;243;166;181;171;124;215;150;226;130;172], (Some [437950;945515;124;1494;8364]));
  ([225;128;86;207;169;226;130;172], None);
  ([225;131;154;241;133;172;150;66;225;160;170], (Some [4314;285462;66;6186]));
  ([224;176;179;226;130], None);
  ([113;237;130;172], (Some [113;53420]));
  ([226;130;172], (Some [8364]));
  ([224;176;185;225;174;164;194;166;225;166;168], (Some [3129;7076;166;6568]));
  ([226;128;163], (Some [8227]));
  ([26;68;224;161;156;241;148;159;161;226;130;172], (Some [26;68;2140;346081;8364]));
  ([226;130], None);
  ([241;179;178;169;201;175], (Some [474281;623]));
  ([107;149;190;226;167;188;242;176;158;177;203;183;226;130;172], None);
  ([242;149;157;225;164;182;211;146;65;226;130;172], None);
  ([], (Some []));
  ([112;226;130;8], None);
  ([160;191;127;240;244], None);
  ([128;143;0;191], None);
  ([2;150;240;167;129;185;202;157;226;130;172], None)
].
Example agree_utf8_decode : forallb (fun '(b, r) => optstr_eqb (utf8_decode b) r) cases_utf8_decode = true.
Proof. vm_compute. reflexivity. Qed.

(** [s.encode()] *)
Definition cases_utf8_encode : list (pystr * option bytes) := [
  ([], (Some []));
  ([], (Some []));
  ([], (Some []));
  ([55348;1265;134281;20], None);
  ([745044;1304;55672], None);
  ([61;55751;407;1018], None);
  ([56703;121;24;77], None);
  ([2675;427138], (Some [224;169;179;241;168;146;130]));
  ([1085160], (Some [244;136;187;168]));
  ([55597;56373;56582;55439], None);
  ([648633;56725;591849], None);
  ([55998;493], None);
  ([623;732;4627], (Some [201;175;203;156;225;136;147]));
  ([3159], (Some [224;177;151]));
  ([55577;733294;379;1043916], None);
  ([955097;705921;556308;769], (Some [243;169;139;153;242;172;150;129;242;135;180;148;204;129]));
  ([1062;448590;4903;47], (Some [208;166;241;173;161;142;225;140;167;47]));
  ([4087;63;1562;9816], (Some [224;191;183;63;216;154;226;153;152]));
  ([1213;49], (Some [210;189;49]));
  ([6054], (Some [225;158;166]));
  ([55450;74], None);
  ([8095;1142;1438], (Some [225;190;159;209;182;214;158]));
  ([1320], (Some [212;168]));
  ([1062;32;57327;57044], None);
  ([8], (Some [8]));
  ([56956;56403;950126], None);
  ([41;55331;636], None);
  ([9660;1094125], (Some [226;150;188;244;139;135;173]));
  ([], (Some []));
  ([56786;1084987], None);
  ([8739;640431;97], (Some [226;136;163;242;156;150;175;97]));
  ([747;2743], (Some [203;171;224;170;183]));
  ([6432;706708;116], (Some [225;164;160;242;172;162;148;116]));
  ([920046], (Some [243;160;167;174]));
  ([31;1374;56427], None);
  ([], (Some []))
].
Example agree_utf8_encode : forallb (fun '(s, r) => optstr_eqb (cd_enc utf8 s) r) cases_utf8_encode = true.
Proof. vm_compute. reflexivity. Qed.

(** [uuid.UUID(s).int] *)
Definition cases_uuid_read : list (pystr * option N) := [
  ([32;48;48;48;48;48;48;48;48;45;48;48;48;48;45;48;48;48;48;45;48;48;48;48;45;48;48;48;48;48;48;48;51;56;101;100;52;32], None);
  ([117;114;110;58;48;48;48;48;48;48;48;48;45;48;48;48;48;45;48;48;48;48;45;48;48;48;48;45;48;48;48;48;48;48;48;48;53;50;49;57;125;125], (Some 21017));
  ([65;48;65;70;55;66;51;67;55;70;54;65;65;49;69;48;69;65;65;66;53;57;57;56;67;50;51;54;67;48;55;69], (Some 213587630805334641345098464309919793278));
  ([102;102;102;102;102;102;102;102;45;102;102;102;102;45;102;102;102;102;45;102;102;102;102;45;102;102;102;102;102;102;102;102;102;102;32;102], None);
  ([48;48;48;48;48;48;48;48;45;48;48;48;48;45;48;48;103;48;45;48;48;48;48;45;48;48;48;48;48;48;48;55;57;53;53;102], None);
  ([48;48;48;48;48;48;48;48;45;48;48;48;48;45;48;48;48;45;48;48;48;48;45;48;48;48;48;48;48;48;51;57;97;52;97], None);
  ([117;114;110;58;102;102;102;102;102;102;102;102;45;102;102;102;102;45;102;102;102;102;45;102;102;102;102;45;102;102;102;102;102;102;102;102;102;102;102;102;125;125], (Some 340282366920938463463374607431768211455));
  ([98;100;49;98;97;53;54;48;45;97;52;53;55;45;101;97;99;56;45;55;50;97;52;45;49;102;101;55;97;100;50;55;56;51;97;99], (Some 251367637472879571108159851014916637612));
  ([32;88;102;102;102;102;102;102;45;102;102;102;102;45;102;102;102;102;45;102;102;102;102;45;102;102;102;102;102;102;102;102;102;102;102;102], None);
  ([48;49;48;48;48;48;48;48;45;48;48;48;48;45;48;48;48;48;45;48;48;48;48;45;48;48;48;48;48;48;48;48;98;98;50;52], (Some 1329227995784915872903807060280392484));
  ([52;51;51;101;97;99;51;53;45;52;100;48;48;45;56;51;49;48;45;53;100;50;56;45;97;49;100;101;50;48;55;101;100;100;48;101], (Some 89383690920193928828960299810924977422));
  ([102;102;102;102;102;102;102;102;45;45;102;102;102;45;102;102;102;102;45;102;102;102;102;45;102;102;102;102;102;102;102;102;102;102;102;102], None);
  ([100;51;97;51;100;57;102;102;45;100;99;102;98;45;52;97;57;49;45;50;53;101;45;50;101;52;100;55;56;55;102;54;51;48;99], None);
  ([123;102;102;102;102;102;102;102;102;45;102;102;102;102;45;102;102;102;102;45;102;102;102;102;45;102;102;102;102;102;102;102;102;102;102;102;102;125;125], (Some 340282366920938463463374607431768211455));
  ([117;114;110;58;117;117;105;100;58;102;102;102;102;102;102;102;102;45;102;102;102;102;45;102;102;102;102;45;102;102;102;102;45;102;102;102;102;102;102;102;102;102;102;102;102;125], (Some 340282366920938463463374607431768211455));
  ([50;55;100;97;57;49;48;101;45;100;56;55;53;45;50;53;101;57;45;57;102;50;57;45;99;48;97;57;57;53;102;54;97;51;56;56], (Some 52974754676349501637605913781620614024));
  ([102;102;102;102;102;102;102;102;45;102;102;102;102;45;102;102;102;102;45;102;102;102;102;45;102;102;102;102;102;102;102;102;102;102;102;102], (Some 340282366920938463463374607431768211455));
  ([102;102;102;102;102;102;102;102;45;102;102;102;102;45;102;102;102;102;45;102;102;102;102;45;102;102;102;102;102;102;102;102;102;102;102;102], (Some 340282366920938463463374607431768211455));
  ([32;49;48;54;49;99;51;52;57;45;56;51;101;100;45;48;57;98;50;45;52;97;48;55;45;54;49;55;102;98;100;57;53;48;101;100;49], None);
  ([48;48;48;48;48;48;48;48;48;48;48;48;48;48;48;48;48;48;48;48;48;48;48;48;48;48;48;68;57;52;70;54], (Some 890102));
  ([48;48;48;48;48;48;48;48;45;48;48;48;48;45;48;48;48;48;45;48;48;48;48;45;48;48;48;48;48;48;48;48;120;50;102;57], None);
  ([123;48;48;48;48;48;48;48;48;45;48;48;48;48;45;48;48;48;48;45;48;48;48;48;45;48;48;48;48;48;48;48;57;97;48;54;54;32], None);
  ([48;48;48;48;48;48;48;48;45;48;48;48;48;45;48;48;48;48;45;48;48;48;48;45;48;48;48;48;48;48;48;97;53;57;55;56], (Some 678264));
  ([48;48;48;48;48;48;48;48;45;43;48;48;48;45;48;48;48;48;45;48;48;48;48;45;48;48;48;48;48;48;48;49;55;99;52;54], None);
  ([51;56;101;97;54;97;101;55;45;51;50;48;100;45;50;97;55;51;45;48;102;98;48;45;48;97;97;52;55;101;48;98;97;99;52;54], (Some 75653933481466133408436761859308891206));
  ([43;48;48;48;48;48;48;48;45;48;48;48;48;45;48;48;48;48;45;48;48;48;48;45;48;48;48;48;48;48;48;57;54;55;102;54], (Some 616438));
  ([117;114;110;58;117;117;105;100;58;54;50;97;50;51;48;55;51;45;54;102;55;54;45;101;56;54;49;45;102;97;52;98;45;98;55;57;48;52;50;97;102;50;48;102;53;125;125], (Some 131106478379400648774251945779962781941));
  ([117;117;105;100;58;55;53;54;98;54;57;49;57;45;53;100;100;55;45;52;50;49;54;45;101;49;98;54;45;102;50;55;99;99;101;57;53;100;99;99;54], (Some 156077382933453167030884072864322280646));
  ([102;102;102;102;102;102;102;45;102;102;102;102;45;102;102;102;102;45;102;102;102;102;45;102;102;102;102;102;102;102;102;102;102;102;102], None);
  ([48;48;48;48;48;48;48;48;48;48;48;48;48;48;48;48;48;48;48;48;48;48;48;48;48;48;48;69;53;49;48;68], (Some 938253));
  ([43;49;57;99;51;57;99;52;45;56;52;98;97;45;100;57;102;57;45;55;100;50;102;45;48;49;97;52;99;56;56;101;54;100;97;56], (Some 2140397972861520778631255366329855400));
  ([102;102;102;102;102;102;102;102;45;102;102;102;102;45;102;102;102;102;45;102;102;102;102;45;102;102;102;102;102;102;102;102;102;102;102;102], (Some 340282366920938463463374607431768211455));
  ([102;102;102;102;102;102;102;102;45;102;102;102;102;45;102;102;102;102;45;102;102;102;45;102;102;102;102;102;102;102;102;102;102;102;102], None);
  ([48;48;48;48;48;48;48;48;45;48;48;48;48;45;48;48;48;48;45;48;48;48;48;45;48;48;48;48;48;48;55;53;102;54;51], None);
  ([69;56;50;68;54;48;50;66;67;53;54;66;67;57;70;53;48;65;54;70;68;56;69;49;57;54;66;55;70;51;67;51], (Some 308616498959966344144065482622573736899));
  ([70;70;70;70;70;70;70;70;70;70;70;70;70;70;70;70;70;70;70;70;70;70;70;70;70;70;70;70;70;70;70;70], (Some 340282366920938463463374607431768211455))
].
Example agree_uuid_read : forallb (fun '(s, r) => optN_eqb (uuid_of_str s) r) cases_uuid_read = true.
Proof. vm_compute. reflexivity. Qed.

(** [str(uuid.UUID(int=u))] *)
Definition cases_uuid_print : list (N * pystr) := [
  (16, [48;48;48;48;48;48;48;48;45;48;48;48;48;45;48;48;48;48;45;48;48;48;48;45;48;48;48;48;48;48;48;48;48;48;49;48]);
  (309105638398749304183265929391426735064, [101;56;56;98;57;52;57;98;45;55;53;54;48;45;49;102;51;56;45;101;97;48;52;45;101;102;101;97;97;50;99;102;56;98;100;56]);
  (1, [48;48;48;48;48;48;48;48;45;48;48;48;48;45;48;48;48;48;45;48;48;48;48;45;48;48;48;48;48;48;48;48;48;48;48;49]);
  (195769398347506906, [48;48;48;48;48;48;48;48;45;48;48;48;48;45;48;48;48;48;45;48;50;98;55;45;56;51;51;98;48;54;54;53;50;52;100;97]);
  (12, [48;48;48;48;48;48;48;48;45;48;48;48;48;45;48;48;48;48;45;48;48;48;48;45;48;48;48;48;48;48;48;48;48;48;48;99]);
  (880834563650907336, [48;48;48;48;48;48;48;48;45;48;48;48;48;45;48;48;48;48;45;48;99;51;57;45;53;97;53;101;54;56;52;99;54;99;99;56]);
  (29, [48;48;48;48;48;48;48;48;45;48;48;48;48;45;48;48;48;48;45;48;48;48;48;45;48;48;48;48;48;48;48;48;48;48;49;100]);
  (11, [48;48;48;48;48;48;48;48;45;48;48;48;48;45;48;48;48;48;45;48;48;48;48;45;48;48;48;48;48;48;48;48;48;48;48;98]);
  (2, [48;48;48;48;48;48;48;48;45;48;48;48;48;45;48;48;48;48;45;48;48;48;48;45;48;48;48;48;48;48;48;48;48;48;48;50]);
  (8, [48;48;48;48;48;48;48;48;45;48;48;48;48;45;48;48;48;48;45;48;48;48;48;45;48;48;48;48;48;48;48;48;48;48;48;56]);
  (248878622466418962321809988659073126381, [98;98;51;99;52;55;55;54;45;56;98;53;54;45;50;55;49;49;45;54;98;57;56;45;50;102;48;98;48;51;99;97;48;102;101;100]);
  (313649825536547591920110886433703183022, [101;98;102;54;99;50;53;52;45;98;57;48;55;45;98;50;102;101;45;51;100;57;55;45;49;50;50;53;52;49;48;57;99;50;97;101]);
  (7, [48;48;48;48;48;48;48;48;45;48;48;48;48;45;48;48;48;48;45;48;48;48;48;45;48;48;48;48;48;48;48;48;48;48;48;55]);
  (18, [48;48;48;48;48;48;48;48;45;48;48;48;48;45;48;48;48;48;45;48;48;48;48;45;48;48;48;48;48;48;48;48;48;48;49;50]);
  (194241336238947555289990965780709278305, [57;50;50;49;56;53;52;53;45;54;51;56;51;45;52;48;54;54;45;56;100;52;102;45;54;56;57;50;54;102;56;50;56;50;54;49]);
  (158581783745978390, [48;48;48;48;48;48;48;48;45;48;48;48;48;45;48;48;48;48;45;48;50;51;51;45;54;53;52;97;99;56;48;54;101;48;49;54]);
  (562135193097578507, [48;48;48;48;48;48;48;48;45;48;48;48;48;45;48;48;48;48;45;48;55;99;100;45;49;97;102;97;100;52;53;51;97;56;48;98]);
  (64903181702435060, [48;48;48;48;48;48;48;48;45;48;48;48;48;45;48;48;48;48;45;48;48;101;54;45;57;53;49;57;57;50;50;97;57;48;102;52]);
  (20, [48;48;48;48;48;48;48;48;45;48;48;48;48;45;48;48;48;48;45;48;48;48;48;45;48;48;48;48;48;48;48;48;48;48;49;52]);
  (30, [48;48;48;48;48;48;48;48;45;48;48;48;48;45;48;48;48;48;45;48;48;48;48;45;48;48;48;48;48;48;48;48;48;48;49;101]);
  (72963550607992511220613921098147289336, [51;54;101;52;52;52;99;57;45;52;97;99;98;45;49;52;56;99;45;52;102;99;51;45;55;55;102;53;50;50;55;102;100;56;102;56]);
  (335252446254029939603888901102104232628, [102;99;51;55;52;53;99;51;45;97;99;49;53;45;55;57;52;55;45;102;99;98;50;45;55;54;48;55;56;57;99;99;52;50;98;52]);
  (141916097056566662213171652514027051689, [54;97;99;52;48;98;99;99;45;97;49;98;49;45;98;100;52;99;45;57;100;56;52;45;100;97;52;52;52;49;53;54;57;97;97;57]);
  (18, [48;48;48;48;48;48;48;48;45;48;48;48;48;45;48;48;48;48;45;48;48;48;48;45;48;48;48;48;48;48;48;48;48;48;49;50]);
  (30, [48;48;48;48;48;48;48;48;45;48;48;48;48;45;48;48;48;48;45;48;48;48;48;45;48;48;48;48;48;48;48;48;48;48;49;101]);
  (10, [48;48;48;48;48;48;48;48;45;48;48;48;48;45;48;48;48;48;45;48;48;48;48;45;48;48;48;48;48;48;48;48;48;48;48;97]);
  (258847622777228150427379059282553265044, [99;50;98;99;51;100;50;48;45;52;98;50;97;45;57;101;98;102;45;50;100;52;102;45;56;102;100;101;54;101;102;50;100;98;57;52]);
  (147161629141622739330410466569743795269, [54;101;98;54;52;99;55;102;45;97;55;99;52;45;102;99;53;99;45;56;56;50;101;45;49;100;101;53;52;54;56;56;56;52;52;53]);
  (29, [48;48;48;48;48;48;48;48;45;48;48;48;48;45;48;48;48;48;45;48;48;48;48;45;48;48;48;48;48;48;48;48;48;48;49;100]);
  (130277081097932637905088805448918501665, [54;50;48;50;55;52;48;49;45;102;100;100;48;45;54;49;102;50;45;55;50;102;54;45;102;100;99;100;100;53;56;99;48;57;50;49]);
  (20, [48;48;48;48;48;48;48;48;45;48;48;48;48;45;48;48;48;48;45;48;48;48;48;45;48;48;48;48;48;48;48;48;48;48;49;52]);
  (226550240108075716, [48;48;48;48;48;48;48;48;45;48;48;48;48;45;48;48;48;48;45;48;51;50;52;45;100;101;51;101;51;57;54;98;100;97;99;52]);
  (71995504853368309725076386896522698771, [51;54;50;57;100;52;55;50;45;49;54;54;57;45;97;99;101;51;45;98;100;57;55;45;99;55;49;100;56;54;48;101;101;48;49;51]);
  (760958879689137497, [48;48;48;48;48;48;48;48;45;48;48;48;48;45;48;48;48;48;45;48;97;56;102;45;55;56;49;49;99;48;56;99;100;100;53;57]);
  (150665725194925508779734228435347042276, [55;49;53;57;50;57;99;53;45;99;102;48;99;45;57;101;48;57;45;57;100;50;55;45;54;55;98;98;50;48;97;53;101;102;101;52]);
  (281040203073520064126303776427314050936, [100;51;54;101;53;102;100;48;45;48;48;52;100;45;57;101;50;48;45;101;52;98;49;45;101;55;100;102;49;52;54;56;102;55;55;56])
].
Example agree_uuid_print : forallb (fun '(u, s) => str_eqb (uuid_str u) s) cases_uuid_print = true.
Proof. vm_compute. reflexivity. Qed.

(** [datetime.fromtimestamp(z / 1000.0)] at an offset from UTC *)
Definition cases_clock_from : list (Z * Z * res datetime) := [
  ((-5400)%Z, (-191699)%Z, (Ok (mk_dt 1969 12 31 22 26 48 301000 None)));
  ((43200)%Z, (26664728023102)%Z, (Ok (mk_dt 2814 12 22 0 53 43 102001 None)));
  ((-43200)%Z, (1980789009971)%Z, (Ok (mk_dt 2032 10 7 7 10 9 971000 None)));
  ((-3600)%Z, (36832342795514)%Z, (Ok (mk_dt 3137 3 4 5 19 55 514000 None)));
  ((-5400)%Z, (253402300799079)%Z, (Ok (mk_dt 9999 12 31 22 29 59 79010 None)));
  ((5400)%Z, (243805342890358)%Z, (Ok (mk_dt 9695 11 19 3 51 30 358002 None)));
  ((0)%Z, (253402300801069)%Z, (Raise ValueError));
  ((0)%Z, (128851884658487)%Z, (Ok (mk_dt 6053 2 25 6 10 58 487000 None)));
  ((0)%Z, (8025042311127)%Z, (Ok (mk_dt 2224 4 21 10 25 11 127000 None)));
  ((0)%Z, (149670846841292)%Z, (Ok (mk_dt 6712 11 18 11 14 1 291992 None)));
  ((5400)%Z, (23682042057)%Z, (Ok (mk_dt 1970 10 2 3 50 42 57000 None)));
  ((3600)%Z, (90500119187804)%Z, (Ok (mk_dt 4837 11 1 2 59 47 804001 None)));
  ((10792)%Z, (11899571462104)%Z, (Ok (mk_dt 2347 1 31 15 30 54 104000 None)));
  ((0)%Z, (-523448)%Z, (Ok (mk_dt 1969 12 31 23 51 16 552000 None)));
  ((3600)%Z, (253402300800798)%Z, (Raise ValueError));
  ((-5400)%Z, (28847848310887)%Z, (Ok (mk_dt 2884 2 25 1 41 50 887001 None)));
  ((10734)%Z, (-5103515641709)%Z, (Ok (mk_dt 1808 4 11 15 44 52 291000 None)));
  ((3600)%Z, (80064005842805)%Z, (Ok (mk_dt 4507 2 16 18 37 22 804993 None)));
  ((43200)%Z, (459)%Z, (Ok (mk_dt 1970 1 1 12 0 0 459000 None)));
  ((-10181)%Z, (-5390000202696)%Z, (Ok (mk_dt 1799 3 13 14 53 36 304000 None)));
  ((0)%Z, (8589934593005)%Z, (Ok (mk_dt 2242 3 16 12 56 33 4999 None)));
  ((0)%Z, (68183786871931)%Z, (Ok (mk_dt 4130 8 29 4 47 51 931000 None)));
  ((43200)%Z, (231841520530460)%Z, (Ok (mk_dt 9316 10 7 10 22 10 459991 None)));
  ((5400)%Z, (-62135510401073)%Z, (Ok (mk_dt 1 1 2 1 29 58 927002 None)));
  ((-5400)%Z, (10781390324595)%Z, (Ok (mk_dt 2311 8 26 13 8 44 594999 None)));
  ((0)%Z, (-53703788869831)%Z, (Ok (mk_dt 268 3 12 8 52 10 168999 None)));
  ((8091)%Z, (-31160047951259)%Z, (Ok (mk_dt 982 7 30 9 22 19 741001 None)));
  ((5400)%Z, (160815637013836)%Z, (Ok (mk_dt 7066 1 17 3 46 53 835999 None)));
  ((-19800)%Z, (253402300799962)%Z, (Ok (mk_dt 9999 12 31 18 29 59 962006 None)));
  ((0)%Z, (87935246690028)%Z, (Ok (mk_dt 4756 7 23 1 24 50 28000 None)));
  ((-43200)%Z, (217341234084759)%Z, (Ok (mk_dt 8857 4 8 1 1 24 759003 None)));
  ((-3600)%Z, (93937021251705)%Z, (Ok (mk_dt 4946 9 30 0 0 51 705002 None)));
  ((0)%Z, (121536225341673)%Z, (Ok (mk_dt 5821 5 1 6 35 41 673004 None)));
  ((8264)%Z, (234596307057856)%Z, (Ok (mk_dt 9404 1 24 3 8 41 855988 None)));
  ((0)%Z, (163112080688960)%Z, (Ok (mk_dt 7138 10 26 7 18 8 959991 None)));
  ((0)%Z, (221187542946740)%Z, (Ok (mk_dt 8979 2 26 0 9 6 739990 None)))
].
Example agree_clock_from : forallb (fun '(o, z, d) => resdt_eqb (local_of o z 1000) d) cases_clock_from = true.
Proof. vm_compute. reflexivity. Qed.

(** [time.mktime(d.timetuple()) * 1000] at an offset from UTC *)
Definition cases_clock_to : list (Z * datetime * Z) := [
  ((-8585)%Z, (mk_dt 1 2 28 3 59 11 0 (Some (mk_tz (0)%Z None))), (-62130562664000)%Z);
  ((7613)%Z, (mk_dt 4 3 1 15 27 7 123000 (Some (mk_tz (24299668843)%Z None))), (-62035756786000)%Z);
  ((0)%Z, (mk_dt 400 1 1 3 30 59 123000 None), (-49544425741000)%Z);
  ((-19800)%Z, (mk_dt 9999 1 1 15 6 29 123000 (Some (mk_tz (31512919069)%Z None))), (253370838989000)%Z);
  ((3600)%Z, (mk_dt 2000 3 1 19 20 21 821132 (Some (mk_tz (-49920000000)%Z None))), (951934821000)%Z);
  ((-5400)%Z, (mk_dt 9999 3 1 12 59 50 0 (Some (mk_tz (-41220000000)%Z None))), (253375914590000)%Z);
  ((-5400)%Z, (mk_dt 9999 1 1 14 11 53 942098 (Some (mk_tz (25390000000)%Z None))), (253370821313000)%Z);
  ((0)%Z, (mk_dt 1900 2 28 12 2 47 123000 None), (-2203934233000)%Z);
  ((0)%Z, (mk_dt 4 3 1 8 48 37 0 (Some (mk_tz (80721000000)%Z None))), (-62035773083000)%Z);
  ((19800)%Z, (mk_dt 2000 2 28 1 25 13 123000 (Some (mk_tz (0)%Z None))), (951681313000)%Z);
  ((0)%Z, (mk_dt 400 12 30 13 27 1 661768 (Some (mk_tz (21542912029)%Z None))), (-49512940379000)%Z);
  ((43200)%Z, (mk_dt 1900 2 28 22 33 54 5 (Some (mk_tz (0)%Z None))), (-2203939566000)%Z);
  ((0)%Z, (mk_dt 2000 2 29 20 30 26 0 (Some (mk_tz (-49222757495)%Z None))), (951856226000)%Z);
  ((0)%Z, (mk_dt 3875 3 2 23 49 41 0 (Some (mk_tz (0)%Z None))), (60121266581000)%Z);
  ((-5400)%Z, (mk_dt 400 2 29 2 53 35 5 (Some (mk_tz (0)%Z None))), (-49539324985000)%Z);
  ((0)%Z, (mk_dt 9179 3 2 13 11 5 123000 (Some (mk_tz (0)%Z None))), (227499282665000)%Z);
  ((-19800)%Z, (mk_dt 100 1 1 23 58 31 5 None), (-59011353089000)%Z);
  ((-43200)%Z, (mk_dt 4 2 29 3 6 13 0 None), (-62035836827000)%Z);
  ((10741)%Z, (mk_dt 400 2 28 9 9 34 357438 (Some (mk_tz (60158000000)%Z None))), (-49539404967000)%Z);
  ((5400)%Z, (mk_dt 9644 2 28 11 7 42 0 (Some (mk_tz (-14280000000)%Z None))), (242173100262000)%Z);
  ((0)%Z, (mk_dt 4 2 28 0 25 22 0 (Some (mk_tz (0)%Z None))), (-62035976078000)%Z);
  ((43200)%Z, (mk_dt 1900 2 28 19 9 59 0 (Some (mk_tz (0)%Z None))), (-2203951801000)%Z);
  ((0)%Z, (mk_dt 1900 2 28 6 47 23 123000 (Some (mk_tz (-73680000000)%Z None))), (-2203953157000)%Z);
  ((0)%Z, (mk_dt 100 1 1 19 5 51 123000 (Some (mk_tz (-32854815647)%Z None))), (-59011390449000)%Z);
  ((19800)%Z, (mk_dt 1900 1 1 14 6 15 123000 (Some (mk_tz (32656000000)%Z None))), (-2208957825000)%Z);
  ((0)%Z, (mk_dt 1900 9 14 2 4 30 525909 (Some (mk_tz (23591054991)%Z None))), (-2186862930000)%Z);
  ((0)%Z, (mk_dt 4202 3 2 19 48 28 123000 (Some (mk_tz (0)%Z None))), (70440349708000)%Z);
  ((0)%Z, (mk_dt 100 3 1 7 46 52 123000 (Some (mk_tz (63600000000)%Z None))), (-59006333588000)%Z);
  ((-5400)%Z, (mk_dt 2000 1 1 2 52 15 123000 (Some (mk_tz (0)%Z None))), (946700535000)%Z);
  ((3600)%Z, (mk_dt 100 2 28 21 21 21 123000 (Some (mk_tz (0)%Z None))), (-59006374719000)%Z);
  ((9668)%Z, (mk_dt 400 2 28 2 24 32 0 (Some (mk_tz (79800000000)%Z None))), (-49539428196000)%Z);
  ((3600)%Z, (mk_dt 2024 2 28 12 42 40 5 (Some (mk_tz (64297115548)%Z None))), (1709120560000)%Z);
  ((3600)%Z, (mk_dt 100 7 20 12 3 20 453709 None), (-58994139400000)%Z);
  ((9619)%Z, (mk_dt 400 2 28 9 2 52 605756 (Some (mk_tz (-43320000000)%Z None))), (-49539404247000)%Z);
  ((0)%Z, (mk_dt 2000 3 1 2 11 45 5 (Some (mk_tz (-8210853000)%Z None))), (951876705000)%Z);
  ((0)%Z, (mk_dt 2024 9 20 10 37 43 5 (Some (mk_tz (40920000000)%Z None))), (1726828663000)%Z)
].
Example agree_clock_to : forallb (fun '(o, d, z) => Z.eqb (ms_of_local o d) z) cases_clock_to = true.
Proof. vm_compute. reflexivity. Qed.

(** [datetime.fromtimestamp(z / 1000.0)] in a zone with summer time *)
Definition cases_zone_from : list (Z * Z * Z * Z * Z * res datetime) := [
  ((1869098400)%Z, (1887849000)%Z, (0)%Z, (1800)%Z, (1887849000000)%Z, (Ok (mk_dt 2029 10 28 2 30 0 0 None)));
  ((1585459800)%Z, (1603600200)%Z, (-12600)%Z, (-5400)%Z, (1603565584000)%Z, (Ok (mk_dt 2020 10 24 17 23 4 0 None)));
  ((1330547400)%Z, (1351287000)%Z, (19800)%Z, (23400)%Z, (1330475002000)%Z, (Ok (mk_dt 2012 2 29 5 53 22 0 None)));
  ((1803862800)%Z, (1824602400)%Z, (3600)%Z, (7200)%Z, (1826015905749)%Z, (Ok (mk_dt 2027 11 12 11 38 25 749000 None)));
  ((1614544200)%Z, (1635283800)%Z, (19800)%Z, (23400)%Z, (1635283801000)%Z, (Ok (mk_dt 2021 10 27 3 0 1 0 None)));
  ((258481800)%Z, (279041400)%Z, (34200)%Z, (37800)%Z, (258481800000)%Z, (Ok (mk_dt 1978 3 12 3 0 0 0 None)));
  ((2056339800)%Z, (2077079400)%Z, (-12600)%Z, (-9000)%Z, (2056330854000)%Z, (Ok (mk_dt 2035 2 28 23 30 54 0 None)));
  ((1175392800)%Z, (1191722400)%Z, (3600)%Z, (0)%Z, (1175456854505)%Z, (Ok (mk_dt 2007 4 1 19 47 34 505000 None)));
  ((1456794000)%Z, (1477530000)%Z, (3600)%Z, (10800)%Z, (1481785549425)%Z, (Ok (mk_dt 2016 12 15 8 5 49 425000 None)));
  ((1806179400)%Z, (1824924600)%Z, (19800)%Z, (27000)%Z, (1824924599106)%Z, (Ok (mk_dt 2027 10 31 2 59 59 106000 None)));
  ((323209800)%Z, (341353800)%Z, (19800)%Z, (23400)%Z, (323209799807)%Z, (Ok (mk_dt 1980 3 30 1 59 59 807000 None)));
  ((604677600)%Z, (625413600)%Z, (43200)%Z, (50400)%Z, (625413601321)%Z, (Ok (mk_dt 1989 10 27 2 0 1 321000 None)));
  ((1175392800)%Z, (1191722400)%Z, (3600)%Z, (0)%Z, (1186099420248)%Z, (Ok (mk_dt 2007 8 3 0 3 40 248000 None)));
  ((732040200)%Z, (752601600)%Z, (34200)%Z, (36000)%Z, (732040199947)%Z, (Ok (mk_dt 1993 3 14 1 59 59 947000 None)));
  ((2057209200)%Z, (2077768800)%Z, (-18000)%Z, (-14400)%Z, (2057209200000)%Z, (Ok (mk_dt 2035 3 11 3 0 0 0 None)));
  ((1617478200)%Z, (1633206600)%Z, (27000)%Z, (19800)%Z, (1617517004267)%Z, (Ok (mk_dt 2021 4 4 11 46 44 267000 None)));
  ((1047171600)%Z, (1067731200)%Z, (3600)%Z, (7200)%Z, (1066092923000)%Z, (Ok (mk_dt 2003 10 14 2 55 23 0 None)));
  ((384899400)%Z, (405459000)%Z, (19800)%Z, (23400)%Z, (405459818894)%Z, (Ok (mk_dt 1982 11 7 1 13 38 894000 None)));
  ((2058971400)%Z, (2075301000)%Z, (37800)%Z, (34200)%Z, (2058964947711)%Z, (Ok (mk_dt 2035 4 1 1 12 27 711000 None)));
  ((1869685200)%Z, (1886013000)%Z, (21600)%Z, (19800)%Z, (1886021104000)%Z, (Ok (mk_dt 2029 10 7 4 45 4 0 None)));
  ((889318800)%Z, (909874800)%Z, (3600)%Z, (10800)%Z, (904904328000)%Z, (Ok (mk_dt 1998 9 4 13 18 48 0 None)));
  ((604677600)%Z, (625417200)%Z, (43200)%Z, (46800)%Z, (612906592368)%Z, (Ok (mk_dt 1989 6 4 8 49 52 368000 None)));
  ((1173558600)%Z, (1194114600)%Z, (19800)%Z, (27000)%Z, (1173558599000)%Z, (Ok (mk_dt 2007 3 11 1 59 59 0 None)));
  ((196792200)%Z, (215542800)%Z, (34200)%Z, (36000)%Z, (189518595338)%Z, (Ok (mk_dt 1976 1 3 21 33 15 338000 None)));
  ((1806217200)%Z, (1824966000)%Z, (-18000)%Z, (-14400)%Z, (1813666666000)%Z, (Ok (mk_dt 2027 6 22 8 17 46 0 None)));
  ((951841800)%Z, (972583200)%Z, (34200)%Z, (36000)%Z, (972667127000)%Z, (Ok (mk_dt 2000 10 28 2 48 47 0 None)));
  ((102486600)%Z, (118819800)%Z, (-5400)%Z, (-12600)%Z, (102486601618)%Z, (Ok (mk_dt 1973 4 1 1 0 1 618000 None)));
  ((1803879000)%Z, (1824620400)%Z, (-12600)%Z, (-10800)%Z, (1803941872000)%Z, (Ok (mk_dt 2027 3 1 19 57 52 0 None)));
  ((796179600)%Z, (814930200)%Z, (3600)%Z, (5400)%Z, (814930199966)%Z, (Ok (mk_dt 1995 10 29 2 59 59 966000 None)));
  ((2058397200)%Z, (2077142400)%Z, (3600)%Z, (10800)%Z, (2058334481000)%Z, (Ok (mk_dt 2035 3 24 8 34 41 0 None)));
  ((2024771400)%Z, (2045512800)%Z, (19800)%Z, (21600)%Z, (2024758912204)%Z, (Ok (mk_dt 2034 2 28 22 31 52 204000 None)));
  ((828237600)%Z, (846381600)%Z, (0)%Z, (3600)%Z, (851876097560)%Z, (Ok (mk_dt 1996 12 29 16 14 57 560000 None)));
  ((607503600)%Z, (623228400)%Z, (-14400)%Z, (-18000)%Z, (608332266000)%Z, (Ok (mk_dt 1989 4 11 16 11 6 0 None)));
  ((1456794000)%Z, (1477533600)%Z, (3600)%Z, (7200)%Z, (1456794000000)%Z, (Ok (mk_dt 2016 3 1 3 0 0 0 None)));
  ((702435600)%Z, (718160400)%Z, (7200)%Z, (3600)%Z, (702435599330)%Z, (Ok (mk_dt 1992 4 5 2 59 59 330000 None)));
  ((828237600)%Z, (846383400)%Z, (0)%Z, (1800)%Z, (846383401000)%Z, (Ok (mk_dt 1996 10 27 2 30 1 0 None)))
].
Example agree_zone_from : forallb (fun '(a, b, o, i, z, d) => resdt_eqb (zone_of (summer a b o i) z 1000) d) cases_zone_from = true.
Proof. vm_compute. reflexivity. Qed.

(** [time.mktime(d.timetuple())] for the date-time of an instant in a zone with summer time: an instant with that date-time *)
Definition cases_zone_to : list (Z * Z * Z * Z * datetime * Z) := [
  ((1551385800)%Z, (1572127200)%Z, (19800)%Z, (21600)%Z, (mk_dt 2019 10 27 3 30 0 0 None), (1572127200)%Z);
  ((2027514600)%Z, (2043237600)%Z, (45000)%Z, (43200)%Z, (mk_dt 2034 3 29 18 18 43 0 None), (2027224123)%Z);
  ((606837600)%Z, (625582800)%Z, (43200)%Z, (50400)%Z, (mk_dt 1989 10 29 1 0 0 0 None), (625575600)%Z);
  ((1396762200)%Z, (1412487000)%Z, (-9000)%Z, (-12600)%Z, (mk_dt 2014 4 6 2 0 1 0 None), (1396758601)%Z);
  ((700038000)%Z, (720597600)%Z, (-18000)%Z, (-14400)%Z, (mk_dt 1992 3 8 3 0 0 0 None), (700038000)%Z);
  ((1995501600)%Z, (2014250400)%Z, (0)%Z, (3600)%Z, (mk_dt 2033 9 23 16 57 54 0 None), (2011103874)%Z);
  ((1017520200)%Z, (1035666000)%Z, (19800)%Z, (21600)%Z, (mk_dt 2002 2 7 9 51 28 0 None), (1013055688)%Z);
  ((1299994200)%Z, (1320553800)%Z, (-12600)%Z, (-9000)%Z, (mk_dt 2011 11 4 7 50 9 0 None), (1320402009)%Z);
  ((69226200)%Z, (89782200)%Z, (-12600)%Z, (-5400)%Z, (mk_dt 1972 3 12 4 0 1 0 None), (69226201)%Z);
  ((1080439200)%Z, (1099184400)%Z, (0)%Z, (7200)%Z, (mk_dt 2004 10 31 2 59 59 0 None), (1099191599)%Z);
  ((2056293000)%Z, (2077032600)%Z, (34200)%Z, (37800)%Z, (mk_dt 2035 10 27 3 59 36 0 None), (2077036176)%Z);
  ((323195400)%Z, (341341200)%Z, (34200)%Z, (36000)%Z, (mk_dt 1980 10 26 2 59 59 0 None), (341342999)%Z);
  ((605683800)%Z, (626243400)%Z, (-12600)%Z, (-9000)%Z, (mk_dt 1989 2 16 18 47 18 0 None), (603670638)%Z);
  ((1457834400)%Z, (1478390400)%Z, (0)%Z, (7200)%Z, (mk_dt 2016 11 6 0 0 1 0 None), (1478390401)%Z);
  ((2091056400)%Z, (2106781200)%Z, (7200)%Z, (3600)%Z, (mk_dt 2036 10 4 14 37 55 0 None), (2106740275)%Z);
  ((670966200)%Z, (686694600)%Z, (27000)%Z, (19800)%Z, (mk_dt 1991 10 6 4 0 1 0 None), (686694601)%Z);
  ((732092400)%Z, (752648400)%Z, (-18000)%Z, (-10800)%Z, (mk_dt 1993 11 6 9 37 42 0 None), (752589462)%Z);
  ((1678543200)%Z, (1699102800)%Z, (43200)%Z, (46800)%Z, (mk_dt 2023 11 19 8 55 53 0 None), (1700340953)%Z);
  ((1617467400)%Z, (1633192200)%Z, (37800)%Z, (34200)%Z, (mk_dt 2021 4 3 17 34 18 0 None), (1617433458)%Z);
  ((1425141000)%Z, (1445880600)%Z, (34200)%Z, (37800)%Z, (mk_dt 2015 12 6 1 42 11 0 None), (1449331931)%Z);
  ((983392200)%Z, (1004131800)%Z, (19800)%Z, (23400)%Z, (mk_dt 2001 2 28 13 17 24 0 None), (983346444)%Z);
  ((793980000)%Z, (814719600)%Z, (43200)%Z, (46800)%Z, (mk_dt 1995 6 22 11 0 34 0 None), (803772034)%Z);
  ((1677632400)%Z, (1698372000)%Z, (3600)%Z, (7200)%Z, (mk_dt 2023 10 27 3 0 1 0 None), (1698368401)%Z);
  ((2119482000)%Z, (2140223400)%Z, (3600)%Z, (5400)%Z, (mk_dt 2037 3 1 0 15 22 0 None), (2119475722)%Z);
  ((891136800)%Z, (909280800)%Z, (0)%Z, (3600)%Z, (mk_dt 1998 10 25 2 0 1 0 None), (909277201)%Z);
  ((102495600)%Z, (118825200)%Z, (-14400)%Z, (-18000)%Z, (mk_dt 1973 6 30 8 12 15 0 None), (110293935)%Z);
  ((2027512800)%Z, (2043237600)%Z, (46800)%Z, (43200)%Z, (mk_dt 2034 4 2 2 0 0 0 None), (2027512800)%Z);
  ((1964653200)%Z, (1980381600)%Z, (7200)%Z, (0)%Z, (mk_dt 2032 4 4 1 0 0 0 None), (1964646000)%Z);
  ((1362099600)%Z, (1382839200)%Z, (3600)%Z, (7200)%Z, (mk_dt 2013 10 26 20 25 11 0 None), (1382811911)%Z);
  ((733890600)%Z, (749613600)%Z, (1800)%Z, (0)%Z, (mk_dt 1993 7 3 4 34 10 0 None), (741674050)%Z);
  ((667773000)%Z, (688512600)%Z, (19800)%Z, (23400)%Z, (mk_dt 1991 10 27 3 0 1 0 None), (688512601)%Z);
  ((228241800)%Z, (246990600)%Z, (34200)%Z, (37800)%Z, (mk_dt 1977 10 31 1 0 55 0 None), (247073455)%Z);
  ((2027565000)%Z, (2043293400)%Z, (-5400)%Z, (-12600)%Z, (mk_dt 2034 4 1 14 39 9 0 None), (2027520549)%Z);
  ((2121870600)%Z, (2140014600)%Z, (34200)%Z, (37800)%Z, (mk_dt 2037 3 29 3 0 1 0 None), (2121870601)%Z);
  ((604677600)%Z, (625417200)%Z, (43200)%Z, (46800)%Z, (mk_dt 1989 12 11 14 10 29 0 None), (629345429)%Z);
  ((1775347200)%Z, (1791075600)%Z, (10800)%Z, (3600)%Z, (mk_dt 2026 12 21 8 7 3 0 None), (1797829623)%Z)
].
Example agree_zone_to : forallb (fun '(a, b, o, i, d, t) => Z.eqb (ms_of_zone (fun w => if Z.eqb (reading (summer a b o i) t) w then t else 0%Z) d) (t * 1000)) cases_zone_to = true.
Proof. vm_compute. reflexivity. Qed.

(** [str(d)] *)
Definition cases_date_print : list (datetime * pystr) := [
  ((mk_dt 4 3 1 10 57 52 1811 None), [48;48;48;52;45;48;51;45;48;49;32;49;48;58;53;55;58;53;50;46;48;48;49;56;49;49]);
  ((mk_dt 7259 12 29 19 9 43 123000 (Some (mk_tz (0)%Z None))), [55;50;53;57;45;49;50;45;50;57;32;49;57;58;48;57;58;52;51;46;49;50;51;48;48;48;43;48;48;58;48;48]);
  ((mk_dt 2024 3 1 14 39 0 917738 (Some (mk_tz (80822000000)%Z None))), [50;48;50;52;45;48;51;45;48;49;32;49;52;58;51;57;58;48;48;46;57;49;55;55;51;56;43;50;50;58;50;55;58;48;50]);
  ((mk_dt 6546 10 13 0 1 0 924762 (Some (mk_tz (-79019000000)%Z None))), [54;53;52;54;45;49;48;45;49;51;32;48;48;58;48;49;58;48;48;46;57;50;52;55;54;50;45;50;49;58;53;54;58;53;57]);
  ((mk_dt 1 2 28 21 3 1 0 (Some (mk_tz (0)%Z None))), [48;48;48;49;45;48;50;45;50;56;32;50;49;58;48;51;58;48;49;43;48;48;58;48;48]);
  ((mk_dt 9999 3 2 16 9 55 123000 (Some (mk_tz (0)%Z None))), [57;57;57;57;45;48;51;45;48;50;32;49;54;58;48;57;58;53;53;46;49;50;51;48;48;48;43;48;48;58;48;48]);
  ((mk_dt 8398 3 1 2 50 42 5 (Some (mk_tz (-51216000000)%Z None))), [56;51;57;56;45;48;51;45;48;49;32;48;50;58;53;48;58;52;50;46;48;48;48;48;48;53;45;49;52;58;49;51;58;51;54]);
  ((mk_dt 4 12 22 20 53 23 0 (Some (mk_tz (8742782200)%Z None))), [48;48;48;52;45;49;50;45;50;50;32;50;48;58;53;51;58;50;51;43;48;50;58;50;53;58;52;50;46;55;56;50;50;48;48]);
  ((mk_dt 9999 3 2 3 41 30 907674 (Some (mk_tz (3180000000)%Z None))), [57;57;57;57;45;48;51;45;48;50;32;48;51;58;52;49;58;51;48;46;57;48;55;54;55;52;43;48;48;58;53;51]);
  ((mk_dt 100 3 2 16 53 45 5 (Some (mk_tz (63895000000)%Z None))), [48;49;48;48;45;48;51;45;48;50;32;49;54;58;53;51;58;52;53;46;48;48;48;48;48;53;43;49;55;58;52;52;58;53;53]);
  ((mk_dt 2024 12 30 5 18 54 123000 None), [50;48;50;52;45;49;50;45;51;48;32;48;53;58;49;56;58;53;52;46;49;50;51;48;48;48]);
  ((mk_dt 1 3 2 21 26 16 123000 (Some (mk_tz (66900000000)%Z None))), [48;48;48;49;45;48;51;45;48;50;32;50;49;58;50;54;58;49;54;46;49;50;51;48;48;48;43;49;56;58;51;53]);
  ((mk_dt 4 1 1 17 22 11 0 (Some (mk_tz (2400000000)%Z None))), [48;48;48;52;45;48;49;45;48;49;32;49;55;58;50;50;58;49;49;43;48;48;58;52;48]);
  ((mk_dt 2024 12 27 2 47 15 0 (Some (mk_tz (0)%Z None))), [50;48;50;52;45;49;50;45;50;55;32;48;50;58;52;55;58;49;53;43;48;48;58;48;48]);
  ((mk_dt 8147 3 2 3 9 20 0 (Some (mk_tz (-9364000000)%Z None))), [56;49;52;55;45;48;51;45;48;50;32;48;51;58;48;57;58;50;48;45;48;50;58;51;54;58;48;52]);
  ((mk_dt 1 1 1 2 21 57 5 (Some (mk_tz (0)%Z None))), [48;48;48;49;45;48;49;45;48;49;32;48;50;58;50;49;58;53;55;46;48;48;48;48;48;53;43;48;48;58;48;48]);
  ((mk_dt 2371 3 2 10 20 59 0 (Some (mk_tz (0)%Z None))), [50;51;55;49;45;48;51;45;48;50;32;49;48;58;50;48;58;53;57;43;48;48;58;48;48]);
  ((mk_dt 100 1 1 23 44 12 123000 (Some (mk_tz (54259000000)%Z None))), [48;49;48;48;45;48;49;45;48;49;32;50;51;58;52;52;58;49;50;46;49;50;51;48;48;48;43;49;53;58;48;52;58;49;57]);
  ((mk_dt 2000 3 1 8 45 44 0 (Some (mk_tz (82052000000)%Z None))), [50;48;48;48;45;48;51;45;48;49;32;48;56;58;52;53;58;52;52;43;50;50;58;52;55;58;51;50]);
  ((mk_dt 1 12 31 1 39 24 5 (Some (mk_tz (82793624436)%Z None))), [48;48;48;49;45;49;50;45;51;49;32;48;49;58;51;57;58;50;52;46;48;48;48;48;48;53;43;50;50;58;53;57;58;53;51;46;54;50;52;52;51;54]);
  ((mk_dt 1 3 2 21 8 49 0 (Some (mk_tz (-10650940446)%Z None))), [48;48;48;49;45;48;51;45;48;50;32;50;49;58;48;56;58;52;57;45;48;50;58;53;55;58;51;48;46;57;52;48;52;52;54]);
  ((mk_dt 100 3 1 8 18 36 0 (Some (mk_tz (-84770422738)%Z None))), [48;49;48;48;45;48;51;45;48;49;32;48;56;58;49;56;58;51;54;45;50;51;58;51;50;58;53;48;46;52;50;50;55;51;56]);
  ((mk_dt 2000 1 1 5 21 21 123000 (Some (mk_tz (0)%Z None))), [50;48;48;48;45;48;49;45;48;49;32;48;53;58;50;49;58;50;49;46;49;50;51;48;48;48;43;48;48;58;48;48]);
  ((mk_dt 1900 1 1 3 6 20 5 (Some (mk_tz (-63982000000)%Z None))), [49;57;48;48;45;48;49;45;48;49;32;48;51;58;48;54;58;50;48;46;48;48;48;48;48;53;45;49;55;58;52;54;58;50;50]);
  ((mk_dt 7030 7 20 12 55 35 0 None), [55;48;51;48;45;48;55;45;50;48;32;49;50;58;53;53;58;51;53]);
  ((mk_dt 2024 3 1 18 32 42 0 (Some (mk_tz (-52686198930)%Z None))), [50;48;50;52;45;48;51;45;48;49;32;49;56;58;51;50;58;52;50;45;49;52;58;51;56;58;48;54;46;49;57;56;57;51;48]);
  ((mk_dt 1900 2 28 5 27 15 5 None), [49;57;48;48;45;48;50;45;50;56;32;48;53;58;50;55;58;49;53;46;48;48;48;48;48;53]);
  ((mk_dt 2000 12 30 2 0 57 5 (Some (mk_tz (-39360000000)%Z None))), [50;48;48;48;45;49;50;45;51;48;32;48;50;58;48;48;58;53;55;46;48;48;48;48;48;53;45;49;48;58;53;54]);
  ((mk_dt 2252 1 1 14 0 47 5 (Some (mk_tz (-74442333035)%Z None))), [50;50;53;50;45;48;49;45;48;49;32;49;52;58;48;48;58;52;55;46;48;48;48;48;48;53;45;50;48;58;52;48;58;52;50;46;51;51;51;48;51;53]);
  ((mk_dt 9999 2 28 14 29 23 168254 (Some (mk_tz (40168000000)%Z None))), [57;57;57;57;45;48;50;45;50;56;32;49;52;58;50;57;58;50;51;46;49;54;56;50;53;52;43;49;49;58;48;57;58;50;56]);
  ((mk_dt 1 3 1 7 45 43 0 (Some (mk_tz (-55374000000)%Z None))), [48;48;48;49;45;48;51;45;48;49;32;48;55;58;52;53;58;52;51;45;49;53;58;50;50;58;53;52]);
  ((mk_dt 1900 3 2 15 58 13 123000 (Some (mk_tz (0)%Z None))), [49;57;48;48;45;48;51;45;48;50;32;49;53;58;53;56;58;49;51;46;49;50;51;48;48;48;43;48;48;58;48;48]);
  ((mk_dt 400 1 7 11 16 45 5 (Some (mk_tz (0)%Z None))), [48;52;48;48;45;48;49;45;48;55;32;49;49;58;49;54;58;52;53;46;48;48;48;48;48;53;43;48;48;58;48;48]);
  ((mk_dt 2000 2 28 8 39 30 5 (Some (mk_tz (68160000000)%Z None))), [50;48;48;48;45;48;50;45;50;56;32;48;56;58;51;57;58;51;48;46;48;48;48;48;48;53;43;49;56;58;53;54]);
  ((mk_dt 1900 3 2 4 36 39 5 None), [49;57;48;48;45;48;51;45;48;50;32;48;52;58;51;54;58;51;57;46;48;48;48;48;48;53]);
  ((mk_dt 8352 1 3 2 46 55 927751 (Some (mk_tz (0)%Z None))), [56;51;53;50;45;48;49;45;48;51;32;48;50;58;52;54;58;53;53;46;57;50;55;55;53;49;43;48;48;58;48;48])
].
Example agree_date_print : forallb (fun '(d, s) => str_eqb (dt_str d) s) cases_date_print = true.
Proof. vm_compute. reflexivity. Qed.

(** [z.tzname(None)] *)
Definition cases_zone_name : list (tzone * pystr) := [
  ((mk_tz (0)%Z None), [85;84;67]);
  ((mk_tz (8340000000)%Z None), [85;84;67;43;48;50;58;49;57]);
  ((mk_tz (60497000000)%Z None), [85;84;67;43;49;54;58;52;56;58;49;55]);
  ((mk_tz (-83640000000)%Z None), [85;84;67;45;50;51;58;49;52]);
  ((mk_tz (-62160000000)%Z None), [85;84;67;45;49;55;58;49;54]);
  ((mk_tz (0)%Z None), [85;84;67]);
  ((mk_tz (-28094000000)%Z None), [85;84;67;45;48;55;58;52;56;58;49;52]);
  ((mk_tz (62315000000)%Z None), [85;84;67;43;49;55;58;49;56;58;51;53]);
  ((mk_tz (-63278179751)%Z None), [85;84;67;45;49;55;58;51;52;58;51;56;46;49;55;57;55;53;49]);
  ((mk_tz (39173365715)%Z None), [85;84;67;43;49;48;58;53;50;58;53;51;46;51;54;53;55;49;53]);
  ((mk_tz (-65387350991)%Z None), [85;84;67;45;49;56;58;48;57;58;52;55;46;51;53;48;57;57;49]);
  ((mk_tz (0)%Z None), [85;84;67]);
  ((mk_tz (7552000000)%Z None), [85;84;67;43;48;50;58;48;53;58;53;50]);
  ((mk_tz (51576000000)%Z None), [85;84;67;43;49;52;58;49;57;58;51;54]);
  ((mk_tz (0)%Z None), [85;84;67]);
  ((mk_tz (16775493603)%Z None), [85;84;67;43;48;52;58;51;57;58;51;53;46;52;57;51;54;48;51]);
  ((mk_tz (11940000000)%Z None), [85;84;67;43;48;51;58;49;57]);
  ((mk_tz (0)%Z None), [85;84;67]);
  ((mk_tz (39246691824)%Z None), [85;84;67;43;49;48;58;53;52;58;48;54;46;54;57;49;56;50;52]);
  ((mk_tz (28143000000)%Z None), [85;84;67;43;48;55;58;52;57;58;48;51]);
  ((mk_tz (-23640000000)%Z None), [85;84;67;45;48;54;58;51;52]);
  ((mk_tz (-73865000000)%Z None), [85;84;67;45;50;48;58;51;49;58;48;53]);
  ((mk_tz (33074003983)%Z None), [85;84;67;43;48;57;58;49;49;58;49;52;46;48;48;51;57;56;51]);
  ((mk_tz (71520000000)%Z None), [85;84;67;43;49;57;58;53;50]);
  ((mk_tz (-82620000000)%Z None), [85;84;67;45;50;50;58;53;55]);
  ((mk_tz (-300000000)%Z None), [85;84;67;45;48;48;58;48;53]);
  ((mk_tz (-58991000000)%Z None), [85;84;67;45;49;54;58;50;51;58;49;49]);
  ((mk_tz (0)%Z None), [85;84;67]);
  ((mk_tz (41834391842)%Z None), [85;84;67;43;49;49;58;51;55;58;49;52;46;51;57;49;56;52;50]);
  ((mk_tz (12642602122)%Z None), [85;84;67;43;48;51;58;51;48;58;52;50;46;54;48;50;49;50;50])
].
Example agree_zone_name : forallb (fun '(z, s) => str_eqb (tz_name z) s) cases_zone_name = true.
Proof. vm_compute. reflexivity. Qed.

(** Equality and order of dates *)
Definition cases_date_order : list (datetime * datetime * bool * res comparison) := [
  ((mk_dt 2024 2 28 15 55 31 390589 (Some (mk_tz (0)%Z None))), (mk_dt 2024 2 28 15 55 31 8 (Some (mk_tz (0)%Z None))), false, (Ok Gt));
  ((mk_dt 100 1 1 16 31 51 0 None), (mk_dt 5052 1 1 19 42 43 0 (Some (mk_tz (-27122013665)%Z None))), false, (Raise TypeError));
  ((mk_dt 1 2 28 20 24 50 80816 (Some (mk_tz (-37930475014)%Z None))), (mk_dt 1 3 1 6 57 0 555830 (Some (mk_tz (0)%Z None))), true, (Ok Eq));
  ((mk_dt 1900 1 19 18 25 38 0 (Some (mk_tz (-52078000000)%Z None))), (mk_dt 1900 1 20 8 53 36 0 (Some (mk_tz (0)%Z None))), true, (Ok Eq));
  ((mk_dt 2000 2 20 5 58 17 742916 (Some (mk_tz (-51464000000)%Z None))), (mk_dt 400 1 1 4 10 57 5 None), false, (Raise TypeError));
  ((mk_dt 2024 2 28 12 51 24 0 (Some (mk_tz (-63870000000)%Z None))), (mk_dt 9999 1 1 1 33 50 0 (Some (mk_tz (0)%Z None))), false, (Ok Lt));
  ((mk_dt 9999 3 1 6 17 12 5 None), (mk_dt 9999 3 1 6 17 12 3 None), false, (Ok Gt));
  ((mk_dt 100 2 28 7 26 54 0 (Some (mk_tz (0)%Z None))), (mk_dt 100 2 28 7 26 54 0 (Some (mk_tz (0)%Z None))), true, (Ok Eq));
  ((mk_dt 2000 2 29 5 14 11 706286 (Some (mk_tz (20246850917)%Z None))), (mk_dt 2000 12 24 3 38 28 0 (Some (mk_tz (6420000000)%Z None))), false, (Ok Lt));
  ((mk_dt 4833 3 2 22 3 38 123000 (Some (mk_tz (-46560000000)%Z None))), (mk_dt 4833 3 2 22 3 38 9 (Some (mk_tz (-46560000000)%Z None))), false, (Ok Gt));
  ((mk_dt 6516 3 1 0 16 48 5 (Some (mk_tz (-46773440732)%Z None))), (mk_dt 6516 3 1 0 16 48 9 (Some (mk_tz (-46773440732)%Z None))), false, (Ok Lt));
  ((mk_dt 4 4 11 6 13 53 0 (Some (mk_tz (-62042000000)%Z None))), (mk_dt 4 4 11 7 25 55 0 (Some (mk_tz (-57720000000)%Z None))), true, (Ok Eq));
  ((mk_dt 400 12 30 7 46 19 0 None), (mk_dt 400 12 30 7 46 19 0 None), true, (Ok Eq));
  ((mk_dt 4 12 30 19 50 15 375042 None), (mk_dt 400 2 28 21 13 47 5 (Some (mk_tz (0)%Z None))), false, (Raise TypeError));
  ((mk_dt 4 3 1 0 19 35 0 (Some (mk_tz (8280000000)%Z None))), (mk_dt 2000 2 28 14 10 0 746372 (Some (mk_tz (-38100000000)%Z None))), false, (Ok Lt));
  ((mk_dt 1 3 1 21 46 47 5 (Some (mk_tz (-50722701860)%Z None))), (mk_dt 2000 2 29 6 11 10 0 (Some (mk_tz (0)%Z None))), false, (Ok Lt));
  ((mk_dt 1900 12 27 22 18 12 443800 (Some (mk_tz (15480000000)%Z None))), (mk_dt 4 2 28 13 28 15 936495 (Some (mk_tz (-48055993375)%Z None))), false, (Ok Gt));
  ((mk_dt 100 2 28 20 47 59 0 (Some (mk_tz (-32760000000)%Z None))), (mk_dt 100 2 28 20 47 59 0 (Some (mk_tz (-32760000000)%Z None))), true, (Ok Eq));
  ((mk_dt 2000 3 1 9 8 22 123000 (Some (mk_tz (0)%Z None))), (mk_dt 9999 2 28 22 47 50 0 (Some (mk_tz (0)%Z None))), false, (Ok Lt));
  ((mk_dt 1900 3 2 17 24 48 5 (Some (mk_tz (-25855562442)%Z None))), (mk_dt 1900 3 2 17 24 48 8 (Some (mk_tz (-25855562442)%Z None))), false, (Ok Lt));
  ((mk_dt 9824 2 28 10 22 22 0 (Some (mk_tz (0)%Z None))), (mk_dt 9824 2 28 10 22 22 5 (Some (mk_tz (0)%Z None))), false, (Ok Lt));
  ((mk_dt 1900 3 1 10 41 13 423758 (Some (mk_tz (-24504000000)%Z None))), (mk_dt 1900 3 1 10 41 13 3 (Some (mk_tz (-24504000000)%Z None))), false, (Ok Gt));
  ((mk_dt 9999 1 1 20 13 49 123000 (Some (mk_tz (37398808419)%Z None))), (mk_dt 9999 1 1 20 13 49 123000 (Some (mk_tz (37398808419)%Z None))), true, (Ok Eq));
  ((mk_dt 9999 3 2 10 3 6 5 None), (mk_dt 2000 2 28 13 46 26 5 None), false, (Ok Gt));
  ((mk_dt 1765 2 28 22 5 19 0 (Some (mk_tz (71693262507)%Z None))), (mk_dt 1765 2 28 22 5 19 0 (Some (mk_tz (71693262507)%Z None))), true, (Ok Eq));
  ((mk_dt 1900 1 1 7 35 42 123000 (Some (mk_tz (16080000000)%Z None))), (mk_dt 1 3 1 19 56 22 0 (Some (mk_tz (-37935000000)%Z None))), false, (Ok Gt));
  ((mk_dt 3870 3 1 6 14 21 0 (Some (mk_tz (-79562215975)%Z None))), (mk_dt 3870 3 1 6 14 21 6 (Some (mk_tz (-79562215975)%Z None))), false, (Ok Lt));
  ((mk_dt 2000 2 29 23 22 38 0 (Some (mk_tz (68616000000)%Z None))), (mk_dt 1900 3 2 8 55 11 123000 (Some (mk_tz (-42180000000)%Z None))), false, (Ok Gt));
  ((mk_dt 9999 3 1 1 8 5 599846 (Some (mk_tz (-61440000000)%Z None))), (mk_dt 9999 3 1 14 0 52 394627 (Some (mk_tz (-15073205219)%Z None))), true, (Ok Eq));
  ((mk_dt 4 2 28 8 54 57 0 None), (mk_dt 9999 12 31 12 48 50 76772 (Some (mk_tz (0)%Z None))), false, (Raise TypeError));
  ((mk_dt 2024 1 1 1 6 4 0 None), (mk_dt 2024 1 1 1 6 4 5 None), false, (Ok Lt));
  ((mk_dt 2000 3 1 17 40 12 5 (Some (mk_tz (-62430000000)%Z None))), (mk_dt 400 2 14 20 4 9 5 (Some (mk_tz (55800000000)%Z None))), false, (Ok Gt));
  ((mk_dt 1 12 31 1 31 27 0 (Some (mk_tz (-58225057830)%Z None))), (mk_dt 1900 12 31 22 53 0 123000 (Some (mk_tz (2640000000)%Z None))), false, (Ok Lt));
  ((mk_dt 100 3 2 2 57 25 322634 (Some (mk_tz (0)%Z None))), (mk_dt 100 3 2 2 57 25 322634 (Some (mk_tz (0)%Z None))), true, (Ok Eq));
  ((mk_dt 400 3 1 6 12 3 0 (Some (mk_tz (-41700000000)%Z None))), (mk_dt 400 3 1 6 12 3 8 (Some (mk_tz (-41700000000)%Z None))), false, (Ok Lt));
  ((mk_dt 2000 1 1 7 16 18 0 (Some (mk_tz (5220000000)%Z None))), (mk_dt 2000 12 30 12 17 42 5 (Some (mk_tz (-13640041832)%Z None))), false, (Ok Lt))
].
Example agree_date_order : forallb (fun '(a, b, e, c) => Bool.eqb (dt_eqb a b) e && rescmp_eqb (dt_cmp a b) c) cases_date_order = true.
Proof. vm_compute. reflexivity. Qed.

(** [d.toordinal()] and [date.fromordinal] *)
Definition cases_ordinal : list (Z * Z * Z * Z) := [
  ((100)%Z, (12)%Z, (31)%Z, (36524)%Z);
  ((9593)%Z, (3)%Z, (1)%Z, (3503466)%Z);
  ((4)%Z, (2)%Z, (28)%Z, (1154)%Z);
  ((100)%Z, (1)%Z, (1)%Z, (36160)%Z);
  ((9999)%Z, (3)%Z, (1)%Z, (3651754)%Z);
  ((1)%Z, (12)%Z, (31)%Z, (365)%Z);
  ((2000)%Z, (5)%Z, (5)%Z, (730245)%Z);
  ((1900)%Z, (1)%Z, (1)%Z, (693596)%Z);
  ((4)%Z, (3)%Z, (1)%Z, (1156)%Z);
  ((400)%Z, (2)%Z, (28)%Z, (145790)%Z);
  ((400)%Z, (2)%Z, (29)%Z, (145791)%Z);
  ((100)%Z, (3)%Z, (1)%Z, (36219)%Z);
  ((2000)%Z, (2)%Z, (28)%Z, (730178)%Z);
  ((6819)%Z, (3)%Z, (1)%Z, (2490283)%Z);
  ((2000)%Z, (1)%Z, (1)%Z, (730120)%Z);
  ((1)%Z, (3)%Z, (1)%Z, (60)%Z);
  ((9999)%Z, (3)%Z, (1)%Z, (3651754)%Z);
  ((2024)%Z, (2)%Z, (28)%Z, (738944)%Z);
  ((4904)%Z, (2)%Z, (28)%Z, (1790842)%Z);
  ((7311)%Z, (2)%Z, (28)%Z, (2669981)%Z);
  ((2024)%Z, (12)%Z, (30)%Z, (739250)%Z);
  ((2024)%Z, (2)%Z, (28)%Z, (738944)%Z);
  ((9999)%Z, (12)%Z, (31)%Z, (3652059)%Z);
  ((1)%Z, (3)%Z, (1)%Z, (60)%Z);
  ((400)%Z, (2)%Z, (29)%Z, (145791)%Z);
  ((100)%Z, (3)%Z, (2)%Z, (36220)%Z);
  ((9685)%Z, (3)%Z, (2)%Z, (3537070)%Z);
  ((4)%Z, (2)%Z, (28)%Z, (1154)%Z);
  ((400)%Z, (6)%Z, (12)%Z, (145895)%Z);
  ((100)%Z, (2)%Z, (13)%Z, (36203)%Z);
  ((2024)%Z, (10)%Z, (6)%Z, (739165)%Z);
  ((1)%Z, (3)%Z, (1)%Z, (60)%Z);
  ((9999)%Z, (1)%Z, (1)%Z, (3651695)%Z);
  ((9999)%Z, (1)%Z, (1)%Z, (3651695)%Z);
  ((100)%Z, (2)%Z, (28)%Z, (36218)%Z);
  ((400)%Z, (3)%Z, (1)%Z, (145792)%Z)
].
Example agree_ordinal : forallb (fun '(y, m, d, o) => Z.eqb (ordinal y m d) o && (let '(a, b, c) := ord2ymd o in Z.eqb a y && Z.eqb b m && Z.eqb c d)) cases_ordinal = true.
Proof. vm_compute. reflexivity. Qed.

(** [datetime.strptime(s, {fm})] *)
Definition cases_strptime_plain : list (pystr * option datetime) := [
  ([57;57;57;57;45;49;50;45;51;49;84;50;49;58;52;57;58;49;57;51;50;54;52;48;56], None);
  ([49;48;48;45;48;54;45;51;48;84;48;57;58;49;54;58;51;52], None);
  ([51;57;57;51;45;48;51;45;48;49;84;49;55;58;50;51;58;49;53], (Some (mk_dt 3993 3 1 17 23 15 0 None)));
  ([48;49;48;48;45;49;50;45;51;49;84;48;57;58;53;49;58;49;50;46;52;54;52;53;54;55], None);
  ([48;49;48;48;45;49;48;45;54;84;49;52;58;50;52;58;49;48], (Some (mk_dt 100 10 6 14 24 10 0 None)));
  ([49;48;48;45;48;51;45;48;50;116;50;50;58;52;54;58;51;50], None);
  ([48;49;48;48;45;48;50;45;48;57;84;48;48;58;50;54;58;52;50;46;49;50;51;48;48;48], None);
  ([45;48;48;45;49;50;45;51;48;84;49;50;58;50;53;58;52;55], None);
  ([50;48;48;48;45;49;50;45;51;48;84;50;49;58;52;54;58;53], (Some (mk_dt 2000 12 30 21 46 5 0 None)));
  ([48;49;48;48;45;49;50;45;51;49;84;49;58;52;51;58;51;56], (Some (mk_dt 100 12 31 1 43 38 0 None)));
  ([49;45;48;51;45;48;50;116;48;50;58;52;51;58;10;51], None);
  ([49;45;48;51;45;48;49;84;48;48;48;50;58;52;52], None);
  ([50;48;50;52;45;48;50;45;50;57;84;49;56;49;50;52;58;51;51], None);
  ([49;45;48;50;45;50;56;84;48;49;58;50;50;58;1635;51], None);
  ([49;45;49;50;45;51;49;116;48;52;58;50;52;58;50;53], None);
  ([45;48;49;45;48;49;84;49;50;58;51;57;58;50;48], None);
  ([52;48;48;45;57;50;45;50;56;116;49;57;58;51;49;58;48;51], None);
  ([56;51;54;50;45;51;45;50;84;49;53;58;55;58;53;57], (Some (mk_dt 8362 3 2 15 7 59 0 None)));
  ([57;57;57;57;45;51;45;50;84;49;55;58;53;52;58;53;54], (Some (mk_dt 9999 3 2 17 54 56 0 None)));
  ([49;57;48;48;45;50;45;50;56;84;49;54;58;57;58;51;54], (Some (mk_dt 1900 2 28 16 9 36 0 None)));
  ([50;48;50;52;45;49;50;45;51;48;116;49;53;58;50;54;58;49;49], (Some (mk_dt 2024 12 30 15 26 11 0 None)));
  ([49;45;48;56;45;48;54;84;48;54;58;53;53;58;52;55], None);
  ([49;45;48;50;45;50;56;84;48;48;58;51;57;58;53;57], None);
  ([48;48;48;49;45;50;45;50;56;84;52;58;49;56;58;52;52], (Some (mk_dt 1 2 28 4 18 44 0 None)));
  ([50;48;48;48;45;48;50;45;50;57;116;48;53;58;53;58;49;53], (Some (mk_dt 2000 2 29 5 5 15 0 None)));
  ([50;48;50;52;45;50;45;50;56;84;49;49;51;48;58;49;56], None);
  ([49;48;48;45;48;49;45;48;49;84;48;55;58;50;55;58;51;48], None);
  ([57;57;57;57;45;48;51;45;48;50;84;50;51;58;49;51;58;48;56;46;54;51;56;55;50;49], None);
  ([51;56;55;49;45;48;50;45;50;56;84;50;48;58;51;56;54;49;56], None);
  ([52;48;48;45;48;55;45;49;48;84;49;57;58;51;56;58;48;56], None);
  ([48;52;48;48;45;48;49;45;48;49;84;50;48;58;51;48;58;50;51], (Some (mk_dt 400 1 1 20 30 23 0 None)));
  ([50;48;48;48;45;49;50;45;51;48;116;48;53;58;48;54;58;48;55], (Some (mk_dt 2000 12 30 5 6 7 0 None)));
  ([50;48;48;48;45;48;49;45;48;49;84;48;58;48;50;58;53;55;46;49;50;51;48;48;48], None);
  ([57;57;57;57;45;48;51;45;48;50;116;48;46;58;53;55;58;52;56], None);
  ([49;57;48;48;45;48;51;45;48;49;116;49;51;58;48;55;58;51;57], (Some (mk_dt 1900 3 1 13 7 39 0 None)));
  ([50;48;50;52;51;48;53;45;49;48;116;49;51;58;50;54;58;49;57], None)
].
Example agree_strptime_plain : forallb (fun '(s, r) => optdt_eqb (strptime m_fmt_plain s) r) cases_strptime_plain = true.
Proof. vm_compute. reflexivity. Qed.

(** [datetime.strptime(s, {fm})] *)
Definition cases_strptime_frac : list (pystr * option datetime) := [
  ([48;49;48;48;45;50;45;50;56;84;54;58;51;57;55;50;51;46;48;55;49;52;54;52], None);
  ([49;48;48;45;48;49;45;48;49;116;48;52;52;56;58;51;55;46;55;48;56;57], None);
  ([50;48;50;52;45;48;49;45;48;49;116;48;48;58;53;48;58;48;55;46;55;53;50;52;48;55;51], None);
  ([49;45;48;51;45;48;49;84;48;52;58;50;53;58;53;55;46;58;50;56;51;57;53;49], None);
  ([49;48;48;45;48;51;45;48;49;84;49;57;58;48;49;58;53;52;46;48], None);
  ([49;48;48;45;48;51;45;48;50;116;49;57;58;50;50;58;49;50;46;52;57;48;50;51;55;50], None);
  ([50;48;52;45;48;50;45;49;56;116;48;51;58;49;49;58;50;57;46], None);
  ([49;57;48;48;45;49;50;45;51;49;84;48;57;58;51;57;58;50;57;48;54;48;53], None);
  ([48;49;48;48;45;51;45;49;84;49;56;58;52;49;58;51;55;46;53;56;52;57;49;57], (Some (mk_dt 100 3 1 18 41 37 584919 None)));
  ([50;48;50;52;45;48;49;45;48;49;116;48;56;58;53;51;58;52;55;46;49;52;48;50], (Some (mk_dt 2024 1 1 8 53 47 140200 None)));
  ([49;45;48;49;45;48;49;116;50;57;58;52;55;58;52;55;46;51], None);
  ([49;48;48;45;49;50;45;51;49;84;48;58;48;53;58;48;48;46;50;54;57;57], None);
  ([53;50;56;57;45;48;51;45;48;50;84;49;56;56;50;49;58;53;50;46;48;48;48;48;48;53], None);
  ([57;57;57;57;45;48;50;45;50;56;84;49;48;58;50;57;58;51;56;46;54;57;51;54;52], (Some (mk_dt 9999 2 28 10 29 38 693640 None)));
  ([49;48;48;45;49;50;45;84;49;116;49;54;58;51;56;58;49;54;46;52;48], None);
  ([52;48;48;45;49;50;45;51;48;116;49;49;58;53;48;58;52;57;46;52;48;52;54;50], None);
  ([52;45;48;51;45;48;49;116;49;55;58;48;57;58;50;50;46;49;49;54;52;56], None);
  ([52;48;48;45;48;51;45;48;49;84;48;51;58;50;54;58;51;55;46;50;50;53;50;49;56;56], None);
  ([50;48;50;52;45;48;50;45;50;57;84;48;54;58;52;45;58;52;49;46;57;57;50;49;49], None);
  ([52;48;48;45;48;49;45;48;49;116;50;49;58;49;55;58;53;53;46;52], None);
  ([52;56;48;56;45;48;50;45;50;56;116;50;51;58;50;51;58;51;50;46;49;50;56], (Some (mk_dt 4808 2 28 23 23 32 128000 None)));
  ([57;57;57;57;45;48;50;45;50;56;84;49;49;58;48;53;58;48;53;46;48;48;48;48;48;53], (Some (mk_dt 9999 2 28 11 5 5 5 None)));
  ([54;48;48;45;48;55;45;49;52;116;48;55;58;49;53;58;52;56;46;49;50;48;57;57;51;50], None);
  ([50;48;50;52;45;48;50;45;50;56;116;49;53;58;48;53;58;52;52;46;54;51], (Some (mk_dt 2024 2 28 15 5 44 630000 None)));
  ([49;57;48;48;45;54;45;50;57;84;49;51;58;55;58;51;54;46;49;52], (Some (mk_dt 1900 6 29 13 7 36 140000 None)));
  ([48;48;48;52;45;50;45;50;57;84;51;58;54;58;55;46;53;49;51;53], (Some (mk_dt 4 2 29 3 6 7 513500 None)));
  ([49;45;48;49;45;49;48;116;48;53;58;50;48;58;51;49;46;52;51;53;52;49], None);
  ([48;52;48;48;45;49;50;45;51;48;84;50;48;58;51;49;58;50;46;48], (Some (mk_dt 400 12 30 20 31 2 0 None)));
  ([50;48;50;52;45;50;45;50;56;84;49;53;58;51;48;58;49;57;46;55;49], (Some (mk_dt 2024 2 28 15 30 19 710000 None)));
  ([48;52;48;48;45;48;50;45;50;56;84;54;49;58;49;50;58;53;55;46], None);
  ([50;48;48;48;48;49;45;48;49;116;49;57;58;51;51;58;51;50;46;51;55;48], None);
  ([49;48;48;45;48;52;45;50;50;84;48;53;58;49;51;58;51;57;46;53;54;55;49;55], None);
  ([49;48;48;45;48;51;45;48;116;49;50;58;52;55;58;50;48;46;50;56;51;48], None);
  ([50;48;50;52;45;48;50;45;50;57;84;48;52;58;50;57;58;49;57;46;52], (Some (mk_dt 2024 2 29 4 29 19 400000 None)));
  ([49;48;48;45;48;50;45;50;56;116;48;51;58;51;52;58;52;57;46;54], None);
  ([48;48;48;49;45;49;49;45;49;49;84;49;51;58;50;49;58;50;57;46;48;48;48;48;48;53], (Some (mk_dt 1 11 11 13 21 29 5 None)))
].
Example agree_strptime_frac : forallb (fun '(s, r) => optdt_eqb (strptime m_fmt_frac s) r) cases_strptime_frac = true.
Proof. vm_compute. reflexivity. Qed.

(** [a == b], [a > b], [a >= b] *)
Definition cases_values : list (pyval * pyval * bool * res bool * res bool) := [
  ((PInt (2)%Z), (PDate (mk_dt 2000 1 1 0 0 0 0 (Some (mk_tz (0)%Z None)))), false, (Raise TypeError), (Raise TypeError));
  ((PDate (mk_dt 2024 3 1 19 10 48 5 (Some (mk_tz (0)%Z None)))), (PDate (mk_dt 2024 3 1 19 10 48 5 (Some (mk_tz (0)%Z None)))), true, (Ok false), (Ok true));
  ((PStr []), (PStr []), true, (Ok false), (Ok true));
  ((PInt (-1)%Z), (PFloat (S754_finite true 4503599627370496 (-52)%Z)), true, (Ok false), (Ok true));
  ((PInt (2)%Z), (PInt (3)%Z), false, (Ok false), (Ok false));
  ((PFloat (S754_finite false 5010420900022432 (971)%Z)), (PFloat (S754_zero true)), false, (Ok true), (Ok true));
  ((PStr [97;98]), (PDate (mk_dt 2000 12 30 22 15 44 0 (Some (mk_tz (-41340000000)%Z None)))), false, (Raise TypeError), (Raise TypeError));
  ((PStr []), (PStr []), true, (Ok false), (Ok true));
  ((PBool true), (PFloat (S754_infinity false)), false, (Ok false), (Ok false));
  ((PInt (0)%Z), (PInt (0)%Z), true, (Ok false), (Ok true));
  ((PStr [98]), (PFloat (S754_finite false 7205759403792794 (-56)%Z)), false, (Raise TypeError), (Raise TypeError));
  ((PFloat (S754_finite true 4503599627370496 (-51)%Z)), (PFloat (S754_finite true 4503599627370496 (-52)%Z)), false, (Ok false), (Ok false));
  ((PInt (10000000000000000000000000000000000000000000000000000000000000000000000000000000000000000000000000000000000000000000000000000000000000000000000000000000000000000000000000000000000000000000000000000000000000000000000000000000000000000000000000000000000000000000000000000000000000000000000000000000000000000000000000000000000000000000000000000000000000000000000000000000000000000000000000000000000000000)%Z), (PInt (10000000000000000000000000000000000000000000000000000000000000000000000000000000000000000000000000000000000000000000000000000000000000000000000000000000000000000000000000000000000000000000000000000000000000000000000000000000000000000000000000000000000000000000000000000000000000000000000000000000000000000000000000000000000000000000000000000000000000000000000000000000000000000000000000000000000000000)%Z), true, (Ok false), (Ok true));
  ((PBool false), (PInt (1)%Z), false, (Ok false), (Ok false));
  (PNone, (PInt (-1)%Z), false, (Raise TypeError), (Raise TypeError));
  ((PStr [97]), (PStr [97]), true, (Ok false), (Ok true));
  ((PDate (mk_dt 400 3 1 15 56 22 5 (Some (mk_tz (-1550019598)%Z None)))), (PFloat (S754_finite false 5010420900022432 (971)%Z)), false, (Raise TypeError), (Raise TypeError));
  ((PInt (-1)%Z), (PFloat (S754_finite true 4503599627370496 (-52)%Z)), true, (Ok false), (Ok true));
  ((PBool true), (PInt (1)%Z), true, (Ok false), (Ok true));
  ((PStr [97]), (PStr [97]), true, (Ok false), (Ok true));
  ((PFloat (S754_finite false 8188491323224584 (7)%Z)), (PInt (1048126889372746752)%Z), true, (Ok false), (Ok true));
  ((PStr [97]), PNone, false, (Raise TypeError), (Raise TypeError));
  ((PDate (mk_dt 2000 1 1 0 0 0 0 (Some (mk_tz (0)%Z None)))), (PDate (mk_dt 2000 1 1 0 0 0 0 None)), false, (Raise TypeError), (Raise TypeError));
  ((PInt (1)%Z), (PInt (2)%Z), false, (Ok false), (Ok false));
  ((PStr [97]), (PFloat (S754_infinity true)), false, (Raise TypeError), (Raise TypeError));
  ((PFloat (S754_finite false 5010420900022432 (971)%Z)), PNone, false, (Raise TypeError), (Raise TypeError));
  ((PDate (mk_dt 2000 1 1 0 0 0 0 (Some (mk_tz (0)%Z None)))), (PStr [97;98]), false, (Raise TypeError), (Raise TypeError));
  ((PBool true), (PFloat (S754_finite false 4503599627370496 (-52)%Z)), true, (Ok false), (Ok true));
  ((PFloat (S754_finite false 1 (-1074)%Z)), (PFloat (S754_finite false 1 (-1074)%Z)), true, (Ok false), (Ok true));
  ((PFloat (S754_finite false 7205759403792794 (-56)%Z)), (PFloat (S754_finite true 6613712169878235 (-50)%Z)), false, (Ok true), (Ok true));
  ((PFloat (S754_infinity false)), (PBool false), false, (Ok true), (Ok true));
  ((PDate (mk_dt 2000 1 1 0 0 0 0 None)), (PBool true), false, (Raise TypeError), (Raise TypeError));
  ((PFloat (S754_finite true 7650031813019296 (-275)%Z)), (PInt (10000000000000000000000000000000000000000000000000000000000000000000000000000000000000000000000000000000000000000000000000000000000000000000000000000000000000000000000000000000000000000000000000000000000000000000000000000000000000000000000000000000000000000000000000000000000000000000000000000000000000000000000000000000000000000000000000000000000000000000000000000000000000000000000000000000000000000)%Z), false, (Ok false), (Ok false));
  ((PDate (mk_dt 2000 1 1 0 0 0 0 None)), (PStr [98]), false, (Raise TypeError), (Raise TypeError));
  ((PStr [98]), (PInt (1)%Z), false, (Raise TypeError), (Raise TypeError));
  ((PInt (10000000000000000000000000000000000000000000000000000000000000000000000000000000000000000000000000000000000000000000000000000000000000000000000000000000000000000000000000000000000000000000000000000000000000000000000000000000000000000000000000000000000000000000000000000000000000000000000000000000000000000000000000000000000000000000000000000000000000000000000000000000000000000000000000000000000000000)%Z), (PFloat (S754_zero true)), false, (Ok true), (Ok true));
  ((PBool true), (PInt (2)%Z), false, (Ok false), (Ok false));
  ((PFloat (S754_finite false 5943352100208178 (6)%Z)), (PStr []), false, (Raise TypeError), (Raise TypeError));
  ((PBool true), (PFloat (S754_finite false 1 (-1074)%Z)), false, (Ok true), (Ok true));
  ((PBool true), (PStr [97]), false, (Raise TypeError), (Raise TypeError));
  ((PInt (2)%Z), (PInt (10000000000000000000000000000000000000000000000000000000000000000000000000000000000000000000000000000000000000000000000000000000000000000000000000000000000000000000000000000000000000000000000000000000000000000000000000000000000000000000000000000000000000000000000000000000000000000000000000000000000000000000000000000000000000000000000000000000000000000000000000000000000000000000000000000000000000000)%Z), false, (Ok false), (Ok false));
  ((PInt (2)%Z), (PStr [97;98]), false, (Raise TypeError), (Raise TypeError));
  ((PStr []), (PStr []), true, (Ok false), (Ok true));
  ((PBool false), (PInt (0)%Z), true, (Ok false), (Ok true));
  ((PBool false), (PBool false), true, (Ok false), (Ok true));
  (PNone, PNone, true, (Raise TypeError), (Raise TypeError));
  ((PInt (-834344516497055361468715010652)%Z), (PStr []), false, (Raise TypeError), (Raise TypeError));
  ((PBool false), (PBool false), true, (Ok false), (Ok true));
  (PNone, (PBool false), false, (Raise TypeError), (Raise TypeError));
  ((PInt (2)%Z), (PInt (2)%Z), true, (Ok false), (Ok true));
  ((PInt (0)%Z), (PInt (0)%Z), true, (Ok false), (Ok true));
  ((PFloat (S754_finite false 5010420900022432 (971)%Z)), (PFloat (S754_finite false 5010420900022432 (971)%Z)), true, (Ok false), (Ok true));
  ((PBool true), (PStr [97;98]), false, (Raise TypeError), (Raise TypeError));
  ((PBool false), (PInt (0)%Z), true, (Ok false), (Ok true));
  ((PFloat (S754_finite false 1 (-1074)%Z)), (PInt (1)%Z), false, (Ok false), (Ok false));
  ((PBool false), (PFloat (S754_infinity true)), false, (Ok true), (Ok true));
  ((PInt (0)%Z), (PFloat (S754_finite false 5010420900022432 (971)%Z)), false, (Ok false), (Ok false));
  ((PBool true), (PStr []), false, (Raise TypeError), (Raise TypeError));
  (PNone, PNone, true, (Raise TypeError), (Raise TypeError));
  ((PFloat (S754_finite true 5250656679420988 (-1039)%Z)), (PInt (-1)%Z), false, (Ok true), (Ok true));
  ((PStr [98]), (PFloat (S754_zero true)), false, (Raise TypeError), (Raise TypeError));
  (PNone, (PFloat S754_nan), false, (Raise TypeError), (Raise TypeError));
  ((PInt (6)%Z), (PFloat (S754_finite false 1 (-1074)%Z)), false, (Ok true), (Ok true));
  ((PBool true), (PInt (15389481116545201804)%Z), false, (Ok false), (Ok false));
  ((PStr [97;98]), (PStr [97;98]), true, (Ok false), (Ok true));
  ((PInt (9007199254740993)%Z), (PFloat (S754_finite false 7205759403792794 (-56)%Z)), false, (Ok true), (Ok true));
  ((PFloat (S754_finite false 1 (-1074)%Z)), (PFloat (S754_finite false 1 (-1074)%Z)), true, (Ok false), (Ok true));
  (PNone, (PFloat S754_nan), false, (Raise TypeError), (Raise TypeError));
  ((PInt (-1)%Z), (PInt (1)%Z), false, (Ok false), (Ok false));
  ((PInt (-8)%Z), (PInt (-8)%Z), true, (Ok false), (Ok true));
  ((PBool false), (PDate (mk_dt 1900 2 28 2 5 46 123000 (Some (mk_tz (0)%Z None)))), false, (Raise TypeError), (Raise TypeError));
  ((PInt (1214573719185954939)%Z), (PFloat (S754_finite false 4744428590570136 (8)%Z)), false, (Ok true), (Ok true))
].
Example agree_values : forallb (fun '(a, b, e, g, h) => Bool.eqb (py_eq a b) e && resb_eqb (py_gt a b) g && resb_eqb (py_ge a b) h) cases_values = true.
Proof. vm_compute. reflexivity. Qed.

(** [bool(v)] *)
Definition cases_truth : list (pyval * bool) := [
  ((PBool true), true);
  (PNone, false);
  ((PStr []), false);
  ((PInt (911946)%Z), true);
  (PNone, false);
  ((PStr []), false);
  (PNone, false);
  ((PBool true), true);
  ((PFloat (S754_finite false 1 (-1074)%Z)), true);
  ((PInt (1)%Z), true);
  ((PInt (9007199254740993)%Z), true);
  (PNone, false);
  ((PInt (-1)%Z), true);
  ((PInt (-1)%Z), true);
  ((PFloat S754_nan), true);
  ((PStr [97]), true);
  ((PStr [97;98]), true);
  ((PFloat (S754_finite false 5010420900022432 (971)%Z)), true);
  ((PFloat (S754_finite false 4975856742465812 (-50)%Z)), true);
  (PNone, false);
  ((PBool false), false);
  ((PDate (mk_dt 2000 1 1 0 0 0 0 (Some (mk_tz (0)%Z None)))), true);
  ((PStr [97;98]), true);
  ((PInt (18207778936592529317)%Z), true);
  ((PFloat (S754_finite true 4742650411887628 (-336)%Z)), true);
  ((PFloat (S754_finite false 8451434990039030 (-985)%Z)), true);
  ((PFloat (S754_zero false)), false);
  ((PStr [97]), true);
  ((PBool false), false);
  ((PFloat (S754_finite false 5010420900022432 (971)%Z)), true);
  ((PDate (mk_dt 2000 1 1 0 0 0 0 None)), true);
  (PNone, false);
  (PNone, false);
  ((PDate (mk_dt 2000 1 1 0 0 0 0 None)), true);
  ((PInt (9007199254740993)%Z), true);
  ((PDate (mk_dt 2000 1 1 0 0 0 0 None)), true)
].
Example agree_truth : forallb (fun '(v, b) => Bool.eqb (truthy v) b) cases_truth = true.
Proof. vm_compute. reflexivity. Qed.

(** [float(z)] *)
Definition cases_float_of_int : list (Z * res spec_float) := [
  ((-370631818140557763969458883667)%Z, (Ok (S754_finite true 5266994920426637 (46)%Z)));
  ((13)%Z, (Ok (S754_finite false 7318349394477056 (-49)%Z)));
  ((179769313486231570814527423731704356798070567525844996598917476803157260780028538760589558632766878171540458953514382464234321326889464182768467546703537516986049910576551282076245490090389328944075868508455133942304583236903222948165808559332123348274797826204144723168738177180919299881250404026184124858368)%Z, (Ok (S754_finite false 9007199254740991 (971)%Z)));
  ((-1123674855057821)%Z, (Ok (S754_finite true 8989398840462568 (-3)%Z)));
  ((-112366025529022767353552937753027209373016176895930719842162049623791166937881978098120388348636670446167295693409980940079304177074522800403316354766673731315483212006192485884081690597096491398852261903339146988120903999117426356858697757756337750694992575026009894701315649081763035141519939052910283643577)%Z, (Ok (S754_finite true 5630010827630698 (971)%Z)));
  ((18014398509481987)%Z, (Ok (S754_finite false 4503599627370497 (2)%Z)));
  ((18014398509481986)%Z, (Ok (S754_finite false 4503599627370496 (2)%Z)));
  ((18014398509481987)%Z, (Ok (S754_finite false 4503599627370497 (2)%Z)));
  ((739452708424996215827671818461)%Z, (Ok (S754_finite false 5254127504095125 (47)%Z)));
  ((9007199254740989)%Z, (Ok (S754_finite false 9007199254740989 (0)%Z)));
  ((-4854352357821942252)%Z, (Ok (S754_finite true 4740578474435490 (10)%Z)));
  ((179769313486231580793728971405303415079934132710037826936173778980444968292764750946649017977587207096330286416692887910946555547851940402630657488671505820681908902000708383676273854845817711531764475730270069855571366959622842914819860834936475292719074168444365510704342711559699508093042880177904174497792)%Z, (Raise OverflowError));
  ((308727665233903437886891099637247680447838349283183238175391641251560903033325777891779726852819802396572163486033896378410644339071899595465194741973771829309077359966918560657779702752821299535751752045093622246377795888418429871610624050423662121110059998152209006031408032318147123030347319014468023465767)%Z, (Raise OverflowError));
  ((18014398509481986)%Z, (Ok (S754_finite false 4503599627370496 (2)%Z)));
  ((18014398509481987)%Z, (Ok (S754_finite false 4503599627370497 (2)%Z)));
  ((3310613157840942)%Z, (Ok (S754_finite false 6621226315681884 (-1)%Z)));
  ((-29817740298418726)%Z, (Ok (S754_finite true 7454435074604682 (2)%Z)));
  ((-863750)%Z, (Ok (S754_finite true 7419556003840000 (-33)%Z)));
  ((339841)%Z, (Ok (S754_finite false 5838423923359744 (-34)%Z)));
  ((18014398509481986)%Z, (Ok (S754_finite false 4503599627370496 (2)%Z)));
  ((-746545011051279721034655717932)%Z, (Ok (S754_finite true 5304521345204305 (47)%Z)));
  ((716143750127453145590473295277)%Z, (Ok (S754_finite false 5088507394130582 (47)%Z)));
  ((179769313486231580793728971405303415079934132710037826936173778980444968292764750946649017977587207096330286416692887910946555547851940402630657488671505820681908902000708383676273854845817711531764475730270069855571366959622842914819860834936475292719074168444365510704342711559699508093042880177904174497792)%Z, (Raise OverflowError));
  ((-846014992496485378)%Z, (Ok (S754_finite true 6609492128878792 (7)%Z)));
  ((179769313486231580793728971405303415079934132710037826936173778980444968292764750946649017977587207096330286416692887910946555547851940402630657488671505820681908902000708383676273854845817711531764475730270069855571366959622842914819860834936475292719074168444365510704342711559699508093042880177904174497791)%Z, (Ok (S754_finite false 9007199254740991 (971)%Z)));
  ((-55148726798723391408444901503360210265171860463359895110946838983322057781016596146680228677445498101575957044241822028678329673773786530778851909518829577494395009549728787123228916597149261587503375378427533720465394470995131357811848963176483180847651442840965077102379366951316958795159718964700543779618)%Z, (Ok (S754_finite true 5526366667239017 (970)%Z)));
  ((823982388896757312974321204573)%Z, (Ok (S754_finite false 5854747008248447 (47)%Z)));
  ((444017641288485162511752757759)%Z, (Ok (S754_finite false 6309870191337341 (46)%Z)));
  ((85687052818755506274106474634242298859527215682477646580155946384733100875575324223203348350737590537133206240262082571757132442136418321983800308905934298856667395845521414438159627758627979489269420216424071283860997747295911009009695619724879364160565449606089034574912972574598336677422298444489414405726)%Z, (Ok (S754_finite false 8586564006088373 (970)%Z)));
  ((18014398509481985)%Z, (Ok (S754_finite false 4503599627370496 (2)%Z)));
  ((-564205)%Z, (Ok (S754_finite true 4846484046479360 (-33)%Z)));
  ((-13654681051191783987)%Z, (Ok (S754_finite true 6667324732027238 (11)%Z)));
  ((-321218414014345485705928506605046911072987217992484155559325404706286433704933438406551686823869523053187228317283261691000165882009576088362886398149662215920893429076848564178357958141374560593916304709830378621273591376193954983810856803016242296093191645792987290742483607531047186179150114989894125936474)%Z, (Raise OverflowError));
  ((18014398509481987)%Z, (Ok (S754_finite false 4503599627370497 (2)%Z)));
  ((77471)%Z, (Ok (S754_finite false 5323766582214656 (-36)%Z)));
  ((-3855772566083662)%Z, (Ok (S754_finite true 7711545132167324 (-1)%Z)))
].
Example agree_float_of_int : forallb (fun '(z, r) => resf_eqb (float_of_int z) r) cases_float_of_int = true.
Proof. vm_compute. reflexivity. Qed.

(** [str(v)] of values other than floats *)
Definition cases_text : list (pyval * pystr) := [
  ((PInt (1)%Z), [49]);
  ((PDate (mk_dt 1 3 1 5 51 24 0 (Some (mk_tz (0)%Z None)))), [48;48;48;49;45;48;51;45;48;49;32;48;53;58;53;49;58;50;52;43;48;48;58;48;48]);
  ((PInt (9007199254740993)%Z), [57;48;48;55;49;57;57;50;53;52;55;52;48;57;57;51]);
  (PNone, [78;111;110;101]);
  ((PInt (0)%Z), [48]);
  ((PDate (mk_dt 2000 1 1 0 0 0 0 (Some (mk_tz (0)%Z None)))), [50;48;48;48;45;48;49;45;48;49;32;48;48;58;48;48;58;48;48;43;48;48;58;48;48]);
  ((PBool false), [70;97;108;115;101]);
  ((PBool true), [84;114;117;101]);
  ((PInt (1)%Z), [49]);
  ((PStr [97]), [97]);
  (PNone, [78;111;110;101]);
  ((PInt (-1)%Z), [45;49]);
  ((PBool false), [70;97;108;115;101]);
  ((PBool true), [84;114;117;101]);
  ((PDate (mk_dt 2000 1 1 0 0 0 0 (Some (mk_tz (0)%Z None)))), [50;48;48;48;45;48;49;45;48;49;32;48;48;58;48;48;58;48;48;43;48;48;58;48;48]);
  ((PStr [98]), [98]);
  ((PStr [97]), [97]);
  ((PBool false), [70;97;108;115;101]);
  ((PDate (mk_dt 2000 1 1 0 0 0 0 (Some (mk_tz (0)%Z None)))), [50;48;48;48;45;48;49;45;48;49;32;48;48;58;48;48;58;48;48;43;48;48;58;48;48]);
  ((PDate (mk_dt 2000 1 1 0 0 0 0 (Some (mk_tz (0)%Z None)))), [50;48;48;48;45;48;49;45;48;49;32;48;48;58;48;48;58;48;48;43;48;48;58;48;48]);
  (PNone, [78;111;110;101]);
  ((PStr [98]), [98]);
  ((PBool true), [84;114;117;101])
].
Example agree_text : forallb (fun '(v, s) => str_eqb (py_str v) s) cases_text = true.
Proof. vm_compute. reflexivity. Qed.

(** The calls the serializers make: [ElementTree.tostring], [minidom.parseString], [insertBefore], [toprettyxml] *)
Definition cases_xml_write : list (xnode * option pystr) := [
  (XElem [120;46;121] [([118;97;108;117;101], [39;60;9;34;39;98]);([95;97], [233;97;10;13;32]);([107;101;121], [98;38;38;60;62])] [], (Some [60;63;120;109;108;32;118;101;114;115;105;111;110;61;34;49;46;48;34;32;63;62;10;60;33;45;45;111;110;101;45;45;62;10;60;33;45;45;116;119;111;32;45;32;116;104;114;101;101;45;45;62;10;60;120;46;121;32;118;97;108;117;101;61;34;39;38;108;116;59;9;38;113;117;111;116;59;39;98;34;32;95;97;61;34;233;97;10;13;32;34;32;107;101;121;61;34;98;38;97;109;112;59;38;97;109;112;59;38;108;116;59;38;103;116;59;34;47;62;10]));
  (XElem [108;111;103] [([120;101;115;46;118;101;114;115;105;111;110], [233;38;97;97;34;98]);([118;97;108;117;101], [10;62])] [XElem [65] [([95;97], [9;93;233;93;8232;32]);([107;101;121], [38;8232;39;128512;97;10]);([120;101;115;46;118;101;114;115;105;111;110], [233;93])] [XText [8232;10;39];XElem [115;116;114;105;110;103] [([118;97;108;117;101], [233;10;93;32;60;39]);([105;100], [62;10;10;62]);([95;97], [34;233;97])] [XText [10;98;233;93;93];XElem [120;46;121] [([105;100], [8232;233;60;10;39]);([118;97;108;117;101], [93;60;98;39;128512;62]);([120;101;115;46;118;101;114;115;105;111;110], [34;93])] []];XElem [65] [([120;101;115;46;118;101;114;115;105;111;110], [13;128512]);([105;100], [98;98;97;98]);([95;97], [97;32;62;34])] [XElem [65] [([105;100], [32;93]);([118;97;108;117;101], [39]);([107;101;121], [])] [XText [13;98]];XElem [120;46;121] [] []];XElem [115;116;114;105;110;103] [([120;101;115;46;118;101;114;115;105;111;110], [39;62;10;39;98;97])] [XElem [120;46;121] [([95;97], [8232;60;32])] [];XElem [120;46;121] [([118;97;108;117;101], [34;10;97;60;128512;9]);([107;101;121], [98;233;32;93;62;38])] []]];XElem [120;46;121] [([105;100], [93;233;60;233;128512]);([118;97;108;117;101], [93])] [XText [8232;34;8232];XElem [120;46;121] [([107;101;121], [10;93;32;9]);([95;97], [10]);([120;101;115;46;118;101;114;115;105;111;110], [60;93;34;98])] [XElem [108;111;103] [] [];XElem [115;116;114;105;110;103] [([120;101;115;46;118;101;114;115;105;111;110], [34;8232;10;10]);([118;97;108;117;101], [233]);([95;97], [13;233])] [XText [93;32;9;39]];XElem [120;46;121] [] []];XElem [120;46;121] [([107;101;121], [34;32;9;38]);([118;97;108;117;101], [39;60;98;62;98;62])] [XElem [120;46;121] [([120;101;115;46;118;101;114;115;105;111;110], [32;97;97;97])] [];XElem [115;116;114;105;110;103] [([107;101;121], [62;10;32]);([120;101;115;46;118;101;114;115;105;111;110], [8232])] [];XElem [65] [] [XText [97]]];XElem [108;111;103] [([120;101;115;46;118;101;114;115;105;111;110], [9;10;93;39;39;62])] [XElem [65] [] [XText [10;93;60;128512;60]]]]], (Some [60;63;120;109;108;32;118;101;114;115;105;111;110;61;34;49;46;48;34;32;63;62;10;60;33;45;45;111;110;101;45;45;62;10;60;33;45;45;116;119;111;32;45;32;116;104;114;101;101;45;45;62;10;60;108;111;103;32;120;101;115;46;118;101;114;115;105;111;110;61;34;233;38;97;109;112;59;97;97;38;113;117;111;116;59;98;34;32;118;97;108;117;101;61;34;10;38;103;116;59;34;62;10;9;60;65;32;95;97;61;34;9;93;233;93;8232;32;34;32;107;101;121;61;34;38;97;109;112;59;8232;39;128512;97;10;34;32;120;101;115;46;118;101;114;115;105;111;110;61;34;233;93;34;62;10;9;9;8232;10;39;10;9;9;60;115;116;114;105;110;103;32;118;97;108;117;101;61;34;233;10;93;32;38;108;116;59;39;34;32;105;100;61;34;38;103;116;59;10;10;38;103;116;59;34;32;95;97;61;34;38;113;117;111;116;59;233;97;34;62;10;9;9;9;10;98;233;93;93;10;9;9;9;60;120;46;121;32;105;100;61;34;8232;233;38;108;116;59;10;39;34;32;118;97;108;117;101;61;34;93;38;108;116;59;98;39;128512;38;103;116;59;34;32;120;101;115;46;118;101;114;115;105;111;110;61;34;38;113;117;111;116;59;93;34;47;62;10;9;9;60;47;115;116;114;105;110;103;62;10;9;9;60;65;32;120;101;115;46;118;101;114;115;105;111;110;61;34;13;128512;34;32;105;100;61;34;98;98;97;98;34;32;95;97;61;34;97;32;38;103;116;59;38;113;117;111;116;59;34;62;10;9;9;9;60;65;32;105;100;61;34;32;93;34;32;118;97;108;117;101;61;34;39;34;32;107;101;121;61;34;34;62;10;98;60;47;65;62;10;9;9;9;60;120;46;121;47;62;10;9;9;60;47;65;62;10;9;9;60;115;116;114;105;110;103;32;120;101;115;46;118;101;114;115;105;111;110;61;34;39;38;103;116;59;10;39;98;97;34;62;10;9;9;9;60;120;46;121;32;95;97;61;34;8232;38;108;116;59;32;34;47;62;10;9;9;9;60;120;46;121;32;118;97;108;117;101;61;34;38;113;117;111;116;59;10;97;38;108;116;59;128512;9;34;32;107;101;121;61;34;98;233;32;93;38;103;116;59;38;97;109;112;59;34;47;62;10;9;9;60;47;115;116;114;105;110;103;62;10;9;60;47;65;62;10;9;60;120;46;121;32;105;100;61;34;93;233;38;108;116;59;233;128512;34;32;118;97;108;117;101;61;34;93;34;62;10;9;9;8232;38;113;117;111;116;59;8232;10;9;9;60;120;46;121;32;107;101;121;61;34;10;93;32;9;34;32;95;97;61;34;10;34;32;120;101;115;46;118;101;114;115;105;111;110;61;34;38;108;116;59;93;38;113;117;111;116;59;98;34;62;10;9;9;9;60;108;111;103;47;62;10;9;9;9;60;115;116;114;105;110;103;32;120;101;115;46;118;101;114;115;105;111;110;61;34;38;113;117;111;116;59;8232;10;10;34;32;118;97;108;117;101;61;34;233;34;32;95;97;61;34;13;233;34;62;93;32;9;39;60;47;115;116;114;105;110;103;62;10;9;9;9;60;120;46;121;47;62;10;9;9;60;47;120;46;121;62;10;9;9;60;120;46;121;32;107;101;121;61;34;38;113;117;111;116;59;32;9;38;97;109;112;59;34;32;118;97;108;117;101;61;34;39;38;108;116;59;98;38;103;116;59;98;38;103;116;59;34;62;10;9;9;9;60;120;46;121;32;120;101;115;46;118;101;114;115;105;111;110;61;34;32;97;97;97;34;47;62;10;9;9;9;60;115;116;114;105;110;103;32;107;101;121;61;34;38;103;116;59;10;32;34;32;120;101;115;46;118;101;114;115;105;111;110;61;34;8232;34;47;62;10;9;9;9;60;65;62;97;60;47;65;62;10;9;9;60;47;120;46;121;62;10;9;9;60;108;111;103;32;120;101;115;46;118;101;114;115;105;111;110;61;34;9;10;93;39;39;38;103;116;59;34;62;10;9;9;9;60;65;62;10;93;38;108;116;59;128512;38;108;116;59;60;47;65;62;10;9;9;60;47;108;111;103;62;10;9;60;47;120;46;121;62;10;60;47;108;111;103;62;10]));
  (XElem [115;116;114;105;110;103] [([118;97;108;117;101], [60]);([107;101;121], [10;60;39;13;233;8232]);([105;100], [])] [XText [93];XElem [120;46;121] [([107;101;121], []);([118;97;108;117;101], [])] [XText [93;128512];XElem [120;46;121] [] [];XElem [108;111;103] [] [XText [60;8232;93];XElem [115;116;114;105;110;103] [([118;97;108;117;101], []);([120;101;115;46;118;101;114;115;105;111;110], [62;32;34;38;233;128512])] [];XElem [65] [([120;101;115;46;118;101;114;115;105;111;110], [32;97])] [];XElem [120;46;121] [] []];XElem [65] [] [XText [62;13;9];XElem [65] [] [];XElem [120;46;121] [([120;101;115;46;118;101;114;115;105;111;110], [34;39]);([107;101;121], []);([95;97], [93;233])] []]]], (Some [60;63;120;109;108;32;118;101;114;115;105;111;110;61;34;49;46;48;34;32;63;62;10;60;33;45;45;111;110;101;45;45;62;10;60;33;45;45;116;119;111;32;45;32;116;104;114;101;101;45;45;62;10;60;115;116;114;105;110;103;32;118;97;108;117;101;61;34;38;108;116;59;34;32;107;101;121;61;34;10;38;108;116;59;39;13;233;8232;34;32;105;100;61;34;34;62;10;9;93;10;9;60;120;46;121;32;107;101;121;61;34;34;32;118;97;108;117;101;61;34;34;62;10;9;9;93;128512;10;9;9;60;120;46;121;47;62;10;9;9;60;108;111;103;62;10;9;9;9;38;108;116;59;8232;93;10;9;9;9;60;115;116;114;105;110;103;32;118;97;108;117;101;61;34;34;32;120;101;115;46;118;101;114;115;105;111;110;61;34;38;103;116;59;32;38;113;117;111;116;59;38;97;109;112;59;233;128512;34;47;62;10;9;9;9;60;65;32;120;101;115;46;118;101;114;115;105;111;110;61;34;32;97;34;47;62;10;9;9;9;60;120;46;121;47;62;10;9;9;60;47;108;111;103;62;10;9;9;60;65;62;10;9;9;9;38;103;116;59;10;9;10;9;9;9;60;65;47;62;10;9;9;9;60;120;46;121;32;120;101;115;46;118;101;114;115;105;111;110;61;34;38;113;117;111;116;59;39;34;32;107;101;121;61;34;34;32;95;97;61;34;93;233;34;47;62;10;9;9;60;47;65;62;10;9;60;47;120;46;121;62;10;60;47;115;116;114;105;110;103;62;10]));
  (XElem [65] [] [XText [39;98;39];XElem [108;111;103] [] [XElem [65] [([95;97], [233;32;34]);([120;101;115;46;118;101;114;115;105;111;110], [38;93;39;39;97;98]);([107;101;121], [39;97;9;32])] [XElem [108;111;103] [([118;97;108;117;101], [13;128512;39;233]);([107;101;121], [10;93;97;38])] [XText [93;9]];XElem [108;111;103] [] [];XElem [65] [([105;100], [34]);([120;101;115;46;118;101;114;115;105;111;110], [93;8232;13;233]);([118;97;108;117;101], [98;62;93;60;233;98])] []];XElem [120;46;121] [([120;101;115;46;118;101;114;115;105;111;110], [13;98;93;13;32]);([95;97], [98;38;38;9]);([105;100], [9;38;93;128512;13;8232])] [XElem [115;116;114;105;110;103] [] [];XElem [115;116;114;105;110;103] [] [];XElem [115;116;114;105;110;103] [([120;101;115;46;118;101;114;115;105;111;110], [32;8232;34;93;39;62]);([105;100], [128512;9]);([107;101;121], [9])] []];XElem [65] [([95;97], [128512;39;32;128512;128512])] [XElem [65] [] [];XElem [115;116;114;105;110;103] [] []]];XElem [65] [([107;101;121], [13;98;10;98;38;39]);([105;100], [10;93;13;97;128512]);([118;97;108;117;101], [])] [XText [38;13;13;34;62]];XElem [108;111;103] [([95;97], [93;13;8232;62;9;32]);([105;100], [128512;10;34;10;60;38]);([118;97;108;117;101], [])] [XElem [115;116;114;105;110;103] [([118;97;108;117;101], []);([120;101;115;46;118;101;114;115;105;111;110], [97;60])] [XElem [115;116;114;105;110;103] [([105;100], [])] [XText [128512]]];XElem [65] [([120;101;115;46;118;101;114;115;105;111;110], [62;60])] [XText [8232]]]], (Some [60;63;120;109;108;32;118;101;114;115;105;111;110;61;34;49;46;48;34;32;63;62;10;60;33;45;45;111;110;101;45;45;62;10;60;33;45;45;116;119;111;32;45;32;116;104;114;101;101;45;45;62;10;60;65;62;10;9;39;98;39;10;9;60;108;111;103;62;10;9;9;60;65;32;95;97;61;34;233;32;38;113;117;111;116;59;34;32;120;101;115;46;118;101;114;115;105;111;110;61;34;38;97;109;112;59;93;39;39;97;98;34;32;107;101;121;61;34;39;97;9;32;34;62;10;9;9;9;60;108;111;103;32;118;97;108;117;101;61;34;13;128512;39;233;34;32;107;101;121;61;34;10;93;97;38;97;109;112;59;34;62;93;9;60;47;108;111;103;62;10;9;9;9;60;108;111;103;47;62;10;9;9;9;60;65;32;105;100;61;34;38;113;117;111;116;59;34;32;120;101;115;46;118;101;114;115;105;111;110;61;34;93;8232;13;233;34;32;118;97;108;117;101;61;34;98;38;103;116;59;93;38;108;116;59;233;98;34;47;62;10;9;9;60;47;65;62;10;9;9;60;120;46;121;32;120;101;115;46;118;101;114;115;105;111;110;61;34;13;98;93;13;32;34;32;95;97;61;34;98;38;97;109;112;59;38;97;109;112;59;9;34;32;105;100;61;34;9;38;97;109;112;59;93;128512;13;8232;34;62;10;9;9;9;60;115;116;114;105;110;103;47;62;10;9;9;9;60;115;116;114;105;110;103;47;62;10;9;9;9;60;115;116;114;105;110;103;32;120;101;115;46;118;101;114;115;105;111;110;61;34;32;8232;38;113;117;111;116;59;93;39;38;103;116;59;34;32;105;100;61;34;128512;9;34;32;107;101;121;61;34;9;34;47;62;10;9;9;60;47;120;46;121;62;10;9;9;60;65;32;95;97;61;34;128512;39;32;128512;128512;34;62;10;9;9;9;60;65;47;62;10;9;9;9;60;115;116;114;105;110;103;47;62;10;9;9;60;47;65;62;10;9;60;47;108;111;103;62;10;9;60;65;32;107;101;121;61;34;13;98;10;98;38;97;109;112;59;39;34;32;105;100;61;34;10;93;13;97;128512;34;32;118;97;108;117;101;61;34;34;62;38;97;109;112;59;10;10;38;113;117;111;116;59;38;103;116;59;60;47;65;62;10;9;60;108;111;103;32;95;97;61;34;93;13;8232;38;103;116;59;9;32;34;32;105;100;61;34;128512;10;38;113;117;111;116;59;10;38;108;116;59;38;97;109;112;59;34;32;118;97;108;117;101;61;34;34;62;10;9;9;60;115;116;114;105;110;103;32;118;97;108;117;101;61;34;34;32;120;101;115;46;118;101;114;115;105;111;110;61;34;97;38;108;116;59;34;62;10;9;9;9;60;115;116;114;105;110;103;32;105;100;61;34;34;62;128512;60;47;115;116;114;105;110;103;62;10;9;9;60;47;115;116;114;105;110;103;62;10;9;9;60;65;32;120;101;115;46;118;101;114;115;105;111;110;61;34;38;103;116;59;38;108;116;59;34;62;8232;60;47;65;62;10;9;60;47;108;111;103;62;10;60;47;65;62;10]));
  (XElem [115;116;114;105;110;103] [([105;100], [60;34;8232;93;93]);([118;97;108;117;101], [62;93]);([95;97], [34;128512;93])] [XElem [120;46;121] [([105;100], []);([120;101;115;46;118;101;114;115;105;111;110], [98;32;93])] [XElem [108;111;103] [] [XElem [115;116;114;105;110;103] [([118;97;108;117;101], [13;128512;8232]);([105;100], [233;62;98;8232;93])] [];XElem [65] [] []];XElem [65] [] [XText [13];XElem [108;111;103] [] [];XElem [65] [] []];XElem [108;111;103] [([105;100], [93;9;8232;98]);([120;101;115;46;118;101;114;115;105;111;110], [8232;128512;98;9])] [XElem [108;111;103] [([118;97;108;117;101], [39;97;9;10;34;34])] []]];XElem [115;116;114;105;110;103] [([120;101;115;46;118;101;114;115;105;111;110], [39;9;93;10;13;9]);([105;100], [])] [XText [39;93;32;38];XElem [65] [] [XText [93;98;98;10;233];XElem [115;116;114;105;110;103] [([118;97;108;117;101], [39;9;8232;38;98])] [];XElem [108;111;103] [] [XText [233;98;13;97]]]];XElem [115;116;114;105;110;103] [([107;101;121], [13;34;38;9;34]);([105;100], [60;60;13]);([118;97;108;117;101], [97])] [XElem [115;116;114;105;110;103] [([105;100], [8232;32;62;32])] [XElem [120;46;121] [] [XText [98]]];XElem [108;111;103] [([118;97;108;117;101], [10;13;13;9]);([95;97], []);([107;101;121], [38])] [XElem [115;116;114;105;110;103] [([118;97;108;117;101], [97;97]);([105;100], [38;62;13]);([95;97], [93;38;8232;62])] [XText [38;39]]]]], (Some [60;63;120;109;108;32;118;101;114;115;105;111;110;61;34;49;46;48;34;32;63;62;10;60;33;45;45;111;110;101;45;45;62;10;60;33;45;45;116;119;111;32;45;32;116;104;114;101;101;45;45;62;10;60;115;116;114;105;110;103;32;105;100;61;34;38;108;116;59;38;113;117;111;116;59;8232;93;93;34;32;118;97;108;117;101;61;34;38;103;116;59;93;34;32;95;97;61;34;38;113;117;111;116;59;128512;93;34;62;10;9;60;120;46;121;32;105;100;61;34;34;32;120;101;115;46;118;101;114;115;105;111;110;61;34;98;32;93;34;62;10;9;9;60;108;111;103;62;10;9;9;9;60;115;116;114;105;110;103;32;118;97;108;117;101;61;34;13;128512;8232;34;32;105;100;61;34;233;38;103;116;59;98;8232;93;34;47;62;10;9;9;9;60;65;47;62;10;9;9;60;47;108;111;103;62;10;9;9;60;65;62;10;9;9;9;10;10;9;9;9;60;108;111;103;47;62;10;9;9;9;60;65;47;62;10;9;9;60;47;65;62;10;9;9;60;108;111;103;32;105;100;61;34;93;9;8232;98;34;32;120;101;115;46;118;101;114;115;105;111;110;61;34;8232;128512;98;9;34;62;10;9;9;9;60;108;111;103;32;118;97;108;117;101;61;34;39;97;9;10;38;113;117;111;116;59;38;113;117;111;116;59;34;47;62;10;9;9;60;47;108;111;103;62;10;9;60;47;120;46;121;62;10;9;60;115;116;114;105;110;103;32;120;101;115;46;118;101;114;115;105;111;110;61;34;39;9;93;10;13;9;34;32;105;100;61;34;34;62;10;9;9;39;93;32;38;97;109;112;59;10;9;9;60;65;62;10;9;9;9;93;98;98;10;233;10;9;9;9;60;115;116;114;105;110;103;32;118;97;108;117;101;61;34;39;9;8232;38;97;109;112;59;98;34;47;62;10;9;9;9;60;108;111;103;62;233;98;10;97;60;47;108;111;103;62;10;9;9;60;47;65;62;10;9;60;47;115;116;114;105;110;103;62;10;9;60;115;116;114;105;110;103;32;107;101;121;61;34;13;38;113;117;111;116;59;38;97;109;112;59;9;38;113;117;111;116;59;34;32;105;100;61;34;38;108;116;59;38;108;116;59;13;34;32;118;97;108;117;101;61;34;97;34;62;10;9;9;60;115;116;114;105;110;103;32;105;100;61;34;8232;32;38;103;116;59;32;34;62;10;9;9;9;60;120;46;121;62;98;60;47;120;46;121;62;10;9;9;60;47;115;116;114;105;110;103;62;10;9;9;60;108;111;103;32;118;97;108;117;101;61;34;10;13;13;9;34;32;95;97;61;34;34;32;107;101;121;61;34;38;97;109;112;59;34;62;10;9;9;9;60;115;116;114;105;110;103;32;118;97;108;117;101;61;34;97;97;34;32;105;100;61;34;38;97;109;112;59;38;103;116;59;13;34;32;95;97;61;34;93;38;97;109;112;59;8232;38;103;116;59;34;62;38;97;109;112;59;39;60;47;115;116;114;105;110;103;62;10;9;9;60;47;108;111;103;62;10;9;60;47;115;116;114;105;110;103;62;10;60;47;115;116;114;105;110;103;62;10]));
  (XElem [115;116;114;105;110;103] [([105;100], [39;93;8232]);([95;97], [])] [], (Some [60;63;120;109;108;32;118;101;114;115;105;111;110;61;34;49;46;48;34;32;63;62;10;60;33;45;45;111;110;101;45;45;62;10;60;33;45;45;116;119;111;32;45;32;116;104;114;101;101;45;45;62;10;60;115;116;114;105;110;103;32;105;100;61;34;39;93;8232;34;32;95;97;61;34;34;47;62;10]));
  (XElem [115;116;114;105;110;103] [([120;101;115;46;118;101;114;115;105;111;110], [98;93;233;8232])] [], (Some [60;63;120;109;108;32;118;101;114;115;105;111;110;61;34;49;46;48;34;32;63;62;10;60;33;45;45;111;110;101;45;45;62;10;60;33;45;45;116;119;111;32;45;32;116;104;114;101;101;45;45;62;10;60;115;116;114;105;110;103;32;120;101;115;46;118;101;114;115;105;111;110;61;34;98;93;233;8232;34;47;62;10]));
  (XElem [108;111;103] [] [XElem [108;111;103] [([107;101;121], [38;39;32;128512]);([95;97], [62;32]);([120;101;115;46;118;101;114;115;105;111;110], [10;62;32;8232;10])] [XText [62;60;62;13];XElem [115;116;114;105;110;103] [] [XText [38;98;97;97];XElem [115;116;114;105;110;103] [([105;100], [97;32;98])] [XText [39;98;34]];XElem [65] [([95;97], [60;8232;34;97;97]);([120;101;115;46;118;101;114;115;105;111;110], [128512])] []];XElem [115;116;114;105;110;103] [([105;100], []);([95;97], [128512])] [XText [233;98;39;62];XElem [115;116;114;105;110;103] [([120;101;115;46;118;101;114;115;105;111;110], [13;233;38]);([95;97], [8232])] []];XElem [65] [([107;101;121], [98;38;60;9;39]);([105;100], [10;8232;8232]);([120;101;115;46;118;101;114;115;105;111;110], [60;60;10;60;60])] [XElem [115;116;114;105;110;103] [([107;101;121], [])] [XText [10;38;32;8232;38]]]];XElem [115;116;114;105;110;103] [([120;101;115;46;118;101;114;115;105;111;110], [97;93;98;98;9;13])] [XText [8232;233;93;38;9]]], (Some [60;63;120;109;108;32;118;101;114;115;105;111;110;61;34;49;46;48;34;32;63;62;10;60;33;45;45;111;110;101;45;45;62;10;60;33;45;45;116;119;111;32;45;32;116;104;114;101;101;45;45;62;10;60;108;111;103;62;10;9;60;108;111;103;32;107;101;121;61;34;38;97;109;112;59;39;32;128512;34;32;95;97;61;34;38;103;116;59;32;34;32;120;101;115;46;118;101;114;115;105;111;110;61;34;10;38;103;116;59;32;8232;10;34;62;10;9;9;38;103;116;59;38;108;116;59;38;103;116;59;10;10;9;9;60;115;116;114;105;110;103;62;10;9;9;9;38;97;109;112;59;98;97;97;10;9;9;9;60;115;116;114;105;110;103;32;105;100;61;34;97;32;98;34;62;39;98;38;113;117;111;116;59;60;47;115;116;114;105;110;103;62;10;9;9;9;60;65;32;95;97;61;34;38;108;116;59;8232;38;113;117;111;116;59;97;97;34;32;120;101;115;46;118;101;114;115;105;111;110;61;34;128512;34;47;62;10;9;9;60;47;115;116;114;105;110;103;62;10;9;9;60;115;116;114;105;110;103;32;105;100;61;34;34;32;95;97;61;34;128512;34;62;10;9;9;9;233;98;39;38;103;116;59;10;9;9;9;60;115;116;114;105;110;103;32;120;101;115;46;118;101;114;115;105;111;110;61;34;13;233;38;97;109;112;59;34;32;95;97;61;34;8232;34;47;62;10;9;9;60;47;115;116;114;105;110;103;62;10;9;9;60;65;32;107;101;121;61;34;98;38;97;109;112;59;38;108;116;59;9;39;34;32;105;100;61;34;10;8232;8232;34;32;120;101;115;46;118;101;114;115;105;111;110;61;34;38;108;116;59;38;108;116;59;10;38;108;116;59;38;108;116;59;34;62;10;9;9;9;60;115;116;114;105;110;103;32;107;101;121;61;34;34;62;10;38;97;109;112;59;32;8232;38;97;109;112;59;60;47;115;116;114;105;110;103;62;10;9;9;60;47;65;62;10;9;60;47;108;111;103;62;10;9;60;115;116;114;105;110;103;32;120;101;115;46;118;101;114;115;105;111;110;61;34;97;93;98;98;9;13;34;62;8232;233;93;38;97;109;112;59;9;60;47;115;116;114;105;110;103;62;10;60;47;108;111;103;62;10]));
  (XElem [65] [([95;97], [128512;93;8232;98;60]);([107;101;121], [10]);([118;97;108;117;101], [8232;10;10;32])] [], (Some [60;63;120;109;108;32;118;101;114;115;105;111;110;61;34;49;46;48;34;32;63;62;10;60;33;45;45;111;110;101;45;45;62;10;60;33;45;45;116;119;111;32;45;32;116;104;114;101;101;45;45;62;10;60;65;32;95;97;61;34;128512;93;8232;98;38;108;116;59;34;32;107;101;121;61;34;10;34;32;118;97;108;117;101;61;34;8232;10;10;32;34;47;62;10]));
  (XElem [115;116;114;105;110;103] [([118;97;108;117;101], [233;128512;34;233;13;128512]);([107;101;121], [98;8232;60;97])] [], (Some [60;63;120;109;108;32;118;101;114;115;105;111;110;61;34;49;46;48;34;32;63;62;10;60;33;45;45;111;110;101;45;45;62;10;60;33;45;45;116;119;111;32;45;32;116;104;114;101;101;45;45;62;10;60;115;116;114;105;110;103;32;118;97;108;117;101;61;34;233;128512;38;113;117;111;116;59;233;13;128512;34;32;107;101;121;61;34;98;8232;38;108;116;59;97;34;47;62;10]));
  (XElem [120;46;121] [] [XText [32;93;34;9;97];XElem [108;111;103] [([105;100], [32;39;13;233;98]);([95;97], [9;10;34;39;13;62]);([120;101;115;46;118;101;114;115;105;111;110], [93;32;8232;8232;10])] [XText [233;39];XElem [120;46;121] [([120;101;115;46;118;101;114;115;105;111;110], [98;9]);([95;97], []);([118;97;108;117;101], [8232;9])] [XElem [65] [([95;97], [11;97;98;10;98]);([120;101;115;46;118;101;114;115;105;111;110], [128512])] []];XElem [120;46;121] [([95;97], [60;39;128512;233;13]);([118;97;108;117;101], [13]);([107;101;121], [32;13])] []];XElem [65] [([105;100], [38;32;32;34;93]);([95;97], [98;128512;97]);([107;101;121], [62;97])] [XElem [65] [] [XText [233;34;233;13;39];XElem [65] [] [];XElem [108;111;103] [([95;97], []);([120;101;115;46;118;101;114;115;105;111;110], [34;32;8232;97]);([105;100], [34;98;93;38;62])] [];XElem [120;46;121] [] []];XElem [108;111;103] [] [XText [62;39];XElem [108;111;103] [([118;97;108;117;101], []);([95;97], []);([120;101;115;46;118;101;114;115;105;111;110], [62;9;60;9])] [XText [10;9]];XElem [108;111;103] [([118;97;108;117;101], [34;32;128512;8232;8232;9]);([105;100], [])] [XText [34]]]];XElem [108;111;103] [] [XElem [115;116;114;105;110;103] [] [XElem [65] [] [];XElem [120;46;121] [([105;100], [8232;13;62]);([107;101;121], [10;39;8232])] [];XElem [108;111;103] [] []];XElem [65] [([107;101;121], [38;13;32;60;13])] [XElem [115;116;114;105;110;103] [] [XText [32;32;32]];XElem [120;46;121] [([120;101;115;46;118;101;114;115;105;111;110], [128512;8232;97;233;62]);([118;97;108;117;101], [233;60;38;8232;233;128512]);([107;101;121], [93;32;60])] []];XElem [108;111;103] [([95;97], [39]);([120;101;115;46;118;101;114;115;105;111;110], [38;13;8232;8232]);([107;101;121], [])] [XText [233;8232;97;34];XElem [65] [([95;97], [1;8232;60]);([105;100], [])] [];XElem [108;111;103] [([107;101;121], [32;128512;60])] []]]], None);
  (XElem [120;46;121] [] [XText [39;233;233;60];XElem [108;111;103] [([120;101;115;46;118;101;114;115;105;111;110], [128512;128512;8232;32]);([118;97;108;117;101], [10;98;39;9;233;98]);([95;97], [10;62;93;93])] [XElem [108;111;103] [([107;101;121], [60;34;13;62;93]);([120;101;115;46;118;101;114;115;105;111;110], [34;93;233;98;98;32]);([95;97], [62;98;10])] [XText [13;93;32;93;128512];XElem [120;46;121] [([120;101;115;46;118;101;114;115;105;111;110], [10;93;128512])] [XText [97;39;9;8232;62]]];XElem [115;116;114;105;110;103] [([107;101;121], []);([118;97;108;117;101], [38;60;128512]);([120;101;115;46;118;101;114;115;105;111;110], [98])] [XText [32;10;34;9;39];XElem [115;116;114;105;110;103] [([120;101;115;46;118;101;114;115;105;111;110], [62;13]);([107;101;121], [10;62;62;38;32])] [XText [97;32;38]]]];XElem [120;46;121] [([95;97], [39;60;8232])] [XText [34;60];XElem [108;111;103] [([118;97;108;117;101], [62;39;128512]);([105;100], [60;62;9;32;39;128512]);([107;101;121], [])] [];XElem [65] [([118;97;108;117;101], [98;9]);([105;100], [39;62;233])] [XElem [120;46;121] [([120;101;115;46;118;101;114;115;105;111;110], [62;60]);([105;100], [60;233;97;34]);([107;101;121], [32;128512;128512;60;233])] [XText [8232;38;9;62;39]];XElem [115;116;114;105;110;103] [([120;101;115;46;118;101;114;115;105;111;110], [93;9;97;39;39;9]);([95;97], [])] [XText [93;97]]];XElem [65] [([120;101;115;46;118;101;114;115;105;111;110], [39;39;233;32;32]);([118;97;108;117;101], [11;11;1])] [XElem [65] [([105;100], [97;128512;93])] [];XElem [120;46;121] [([107;101;121], [233;97]);([105;100], [8232]);([95;97], [93;60;10;128512;93])] []]];XElem [108;111;103] [([105;100], [34;9;34;38;39;34])] [XElem [115;116;114;105;110;103] [] []]], None);
  (XElem [120;46;121] [] [XElem [65] [([118;97;108;117;101], [])] [XText [60;10;128512;39]];XElem [115;116;114;105;110;103] [] [XText [34;9]]], (Some [60;63;120;109;108;32;118;101;114;115;105;111;110;61;34;49;46;48;34;32;63;62;10;60;33;45;45;111;110;101;45;45;62;10;60;33;45;45;116;119;111;32;45;32;116;104;114;101;101;45;45;62;10;60;120;46;121;62;10;9;60;65;32;118;97;108;117;101;61;34;34;62;38;108;116;59;10;128512;39;60;47;65;62;10;9;60;115;116;114;105;110;103;62;38;113;117;111;116;59;9;60;47;115;116;114;105;110;103;62;10;60;47;120;46;121;62;10]));
  (XElem [65] [([105;100], [128512;34;10;98;32])] [XText [233;128512;97;128512];XElem [108;111;103] [([120;101;115;46;118;101;114;115;105;111;110], [9;8232;9])] [XElem [108;111;103] [([95;97], [60;98;62;128512]);([118;97;108;117;101], [9]);([105;100], [98;60;93;34])] [XElem [108;111;103] [([105;100], [10;9])] [XText [39;9;38]]];XElem [108;111;103] [([107;101;121], []);([105;100], [])] [];XElem [120;46;121] [([107;101;121], [10;10])] [XElem [120;46;121] [([120;101;115;46;118;101;114;115;105;111;110], [])] [];XElem [120;46;121] [([95;97], [10;38;60;60;98;97]);([120;101;115;46;118;101;114;115;105;111;110], [])] [XText [38;32;98]]]];XElem [115;116;114;105;110;103] [([105;100], [97;60;10;62;38;97]);([95;97], [10;128512;39])] [XText [32;13;233]];XElem [108;111;103] [([105;100], [13;8232;13;98;10;8232]);([107;101;121], [233;39]);([95;97], [34;34;39])] [XElem [115;116;114;105;110;103] [([107;101;121], [65534;128512;13;32])] [XElem [108;111;103] [([105;100], []);([120;101;115;46;118;101;114;115;105;111;110], [38]);([118;97;108;117;101], [128512;38;93])] [XText [34;10;233]];XElem [65] [] [];XElem [65] [([118;97;108;117;101], [98;34])] []];XElem [65] [([118;97;108;117;101], [97;233])] [XElem [115;116;114;105;110;103] [([107;101;121], [34;10;62;13;128512]);([118;97;108;117;101], [98;32;60;93]);([105;100], [62;8232;39;9])] []];XElem [65] [([118;97;108;117;101], []);([120;101;115;46;118;101;114;115;105;111;110], []);([107;101;121], [])] [XElem [108;111;103] [([120;101;115;46;118;101;114;115;105;111;110], [34]);([105;100], [128512]);([118;97;108;117;101], [10;62;10;93;10;233])] [XText [60;39;38;10;13]]]]], None);
  (XElem [120;46;121] [([118;97;108;117;101], [38])] [XElem [120;46;121] [([95;97], [97;233;34;233]);([120;101;115;46;118;101;114;115;105;111;110], []);([105;100], [13;9])] [];XElem [65] [([118;97;108;117;101], [32;32;62;8232;10;38]);([120;101;115;46;118;101;114;115;105;111;110], [62;233;39;60])] [];XElem [120;46;121] [([105;100], [98;34;60;38;13;62]);([118;97;108;117;101], [233;93]);([107;101;121], [13;10;233;9])] []], (Some [60;63;120;109;108;32;118;101;114;115;105;111;110;61;34;49;46;48;34;32;63;62;10;60;33;45;45;111;110;101;45;45;62;10;60;33;45;45;116;119;111;32;45;32;116;104;114;101;101;45;45;62;10;60;120;46;121;32;118;97;108;117;101;61;34;38;97;109;112;59;34;62;10;9;60;120;46;121;32;95;97;61;34;97;233;38;113;117;111;116;59;233;34;32;120;101;115;46;118;101;114;115;105;111;110;61;34;34;32;105;100;61;34;13;9;34;47;62;10;9;60;65;32;118;97;108;117;101;61;34;32;32;38;103;116;59;8232;10;38;97;109;112;59;34;32;120;101;115;46;118;101;114;115;105;111;110;61;34;38;103;116;59;233;39;38;108;116;59;34;47;62;10;9;60;120;46;121;32;105;100;61;34;98;38;113;117;111;116;59;38;108;116;59;38;97;109;112;59;13;38;103;116;59;34;32;118;97;108;117;101;61;34;233;93;34;32;107;101;121;61;34;13;10;233;9;34;47;62;10;60;47;120;46;121;62;10]));
  (XElem [120;46;121] [([107;101;121], []);([120;101;115;46;118;101;114;115;105;111;110], []);([105;100], [])] [XElem [120;46;121] [] []], (Some [60;63;120;109;108;32;118;101;114;115;105;111;110;61;34;49;46;48;34;32;63;62;10;60;33;45;45;111;110;101;45;45;62;10;60;33;45;45;116;119;111;32;45;32;116;104;114;101;101;45;45;62;10;60;120;46;121;32;107;101;121;61;34;34;32;120;101;115;46;118;101;114;115;105;111;110;61;34;34;32;105;100;61;34;34;62;10;9;60;120;46;121;47;62;10;60;47;120;46;121;62;10]));
  (XElem [115;116;114;105;110;103] [([107;101;121], []);([118;97;108;117;101], [93;9;34;38;233]);([120;101;115;46;118;101;114;115;105;111;110], [])] [XElem [108;111;103] [([120;101;115;46;118;101;114;115;105;111;110], [38]);([95;97], [62;10;39;13;60;233])] [XElem [115;116;114;105;110;103] [([107;101;121], [32;97;8232;8232;98;128512]);([105;100], [39;233])] []]], (Some [60;63;120;109;108;32;118;101;114;115;105;111;110;61;34;49;46;48;34;32;63;62;10;60;33;45;45;111;110;101;45;45;62;10;60;33;45;45;116;119;111;32;45;32;116;104;114;101;101;45;45;62;10;60;115;116;114;105;110;103;32;107;101;121;61;34;34;32;118;97;108;117;101;61;34;93;9;38;113;117;111;116;59;38;97;109;112;59;233;34;32;120;101;115;46;118;101;114;115;105;111;110;61;34;34;62;10;9;60;108;111;103;32;120;101;115;46;118;101;114;115;105;111;110;61;34;38;97;109;112;59;34;32;95;97;61;34;38;103;116;59;10;39;13;38;108;116;59;233;34;62;10;9;9;60;115;116;114;105;110;103;32;107;101;121;61;34;32;97;8232;8232;98;128512;34;32;105;100;61;34;39;233;34;47;62;10;9;60;47;108;111;103;62;10;60;47;115;116;114;105;110;103;62;10]));
  (XElem [115;116;114;105;110;103] [([118;97;108;117;101], []);([120;101;115;46;118;101;114;115;105;111;110], [128512;39;32;93])] [XElem [65] [([95;97], [10;128512]);([105;100], [97;60])] [];XElem [65] [([107;101;121], [13])] [];XElem [115;116;114;105;110;103] [([95;97], [233;32;62]);([120;101;115;46;118;101;114;115;105;111;110], [97;97]);([118;97;108;117;101], [97;38;98;62])] [XElem [120;46;121] [([107;101;121], []);([105;100], [])] [XText [62;93;34;128512;128512];XElem [115;116;114;105;110;103] [([105;100], [39;39;60;233;60;97])] [];XElem [115;116;114;105;110;103] [] []]]], (Some [60;63;120;109;108;32;118;101;114;115;105;111;110;61;34;49;46;48;34;32;63;62;10;60;33;45;45;111;110;101;45;45;62;10;60;33;45;45;116;119;111;32;45;32;116;104;114;101;101;45;45;62;10;60;115;116;114;105;110;103;32;118;97;108;117;101;61;34;34;32;120;101;115;46;118;101;114;115;105;111;110;61;34;128512;39;32;93;34;62;10;9;60;65;32;95;97;61;34;10;128512;34;32;105;100;61;34;97;38;108;116;59;34;47;62;10;9;60;65;32;107;101;121;61;34;13;34;47;62;10;9;60;115;116;114;105;110;103;32;95;97;61;34;233;32;38;103;116;59;34;32;120;101;115;46;118;101;114;115;105;111;110;61;34;97;97;34;32;118;97;108;117;101;61;34;97;38;97;109;112;59;98;38;103;116;59;34;62;10;9;9;60;120;46;121;32;107;101;121;61;34;34;32;105;100;61;34;34;62;10;9;9;9;38;103;116;59;93;38;113;117;111;116;59;128512;128512;10;9;9;9;60;115;116;114;105;110;103;32;105;100;61;34;39;39;38;108;116;59;233;38;108;116;59;97;34;47;62;10;9;9;9;60;115;116;114;105;110;103;47;62;10;9;9;60;47;120;46;121;62;10;9;60;47;115;116;114;105;110;103;62;10;60;47;115;116;114;105;110;103;62;10]));
  (XElem [108;111;103] [([107;101;121], [39;13;9;38;34;34]);([105;100], [10;9;34;233;93]);([95;97], [97])] [XElem [115;116;114;105;110;103] [] []], (Some [60;63;120;109;108;32;118;101;114;115;105;111;110;61;34;49;46;48;34;32;63;62;10;60;33;45;45;111;110;101;45;45;62;10;60;33;45;45;116;119;111;32;45;32;116;104;114;101;101;45;45;62;10;60;108;111;103;32;107;101;121;61;34;39;13;9;38;97;109;112;59;38;113;117;111;116;59;38;113;117;111;116;59;34;32;105;100;61;34;10;9;38;113;117;111;116;59;233;93;34;32;95;97;61;34;97;34;62;10;9;60;115;116;114;105;110;103;47;62;10;60;47;108;111;103;62;10]));
  (XElem [108;111;103] [([107;101;121], [62;32]);([95;97], [13;8232]);([120;101;115;46;118;101;114;115;105;111;110], [60])] [XText [62];XElem [65] [([105;100], [8232;233;97;32])] [XElem [108;111;103] [([95;97], [9]);([118;97;108;117;101], [])] [XText [38;98;9;38];XElem [120;46;121] [([120;101;115;46;118;101;114;115;105;111;110], [32]);([95;97], [8232])] [XText [97]]];XElem [120;46;121] [([95;97], [233;13;97;93;8232]);([118;97;108;117;101], [])] [XElem [108;111;103] [([120;101;115;46;118;101;114;115;105;111;110], [13;62;93;10;93;32]);([118;97;108;117;101], [93;9]);([105;100], [97;233;98;9;93])] []];XElem [120;46;121] [([118;97;108;117;101], [32]);([95;97], []);([120;101;115;46;118;101;114;115;105;111;110], [93])] [XElem [120;46;121] [] [];XElem [108;111;103] [([95;97], [97])] [];XElem [115;116;114;105;110;103] [([120;101;115;46;118;101;114;115;105;111;110], [97;38]);([105;100], [39;60;98])] []]];XElem [120;46;121] [([118;97;108;117;101], [233;98;39;233;62;13]);([105;100], []);([120;101;115;46;118;101;114;115;105;111;110], [98;13;128512;62])] [XElem [108;111;103] [([107;101;121], [128512;93;9;97]);([95;97], [233]);([118;97;108;117;101], [10;97;128512;62])] [XElem [65] [([118;97;108;117;101], [62;32;13]);([107;101;121], [62;9;9]);([105;100], [38;60;13;38;34])] [];XElem [115;116;114;105;110;103] [([95;97], [233;233;60;38]);([120;101;115;46;118;101;114;115;105;111;110], [32;60;62;39;128512])] []];XElem [108;111;103] [([95;97], [34]);([105;100], [97;233])] [XElem [65] [([118;97;108;117;101], [60])] []]];XElem [65] [([105;100], [98;34;9;97]);([95;97], [233]);([120;101;115;46;118;101;114;115;105;111;110], [233;38;62;233])] [XElem [120;46;121] [([107;101;121], [])] [XElem [108;111;103] [] [];XElem [65] [([105;100], [39;34])] []]]], (Some [60;63;120;109;108;32;118;101;114;115;105;111;110;61;34;49;46;48;34;32;63;62;10;60;33;45;45;111;110;101;45;45;62;10;60;33;45;45;116;119;111;32;45;32;116;104;114;101;101;45;45;62;10;60;108;111;103;32;107;101;121;61;34;38;103;116;59;32;34;32;95;97;61;34;13;8232;34;32;120;101;115;46;118;101;114;115;105;111;110;61;34;38;108;116;59;34;62;10;9;38;103;116;59;10;9;60;65;32;105;100;61;34;8232;233;97;32;34;62;10;9;9;60;108;111;103;32;95;97;61;34;9;34;32;118;97;108;117;101;61;34;34;62;10;9;9;9;38;97;109;112;59;98;9;38;97;109;112;59;10;9;9;9;60;120;46;121;32;120;101;115;46;118;101;114;115;105;111;110;61;34;32;34;32;95;97;61;34;8232;34;62;97;60;47;120;46;121;62;10;9;9;60;47;108;111;103;62;10;9;9;60;120;46;121;32;95;97;61;34;233;13;97;93;8232;34;32;118;97;108;117;101;61;34;34;62;10;9;9;9;60;108;111;103;32;120;101;115;46;118;101;114;115;105;111;110;61;34;13;38;103;116;59;93;10;93;32;34;32;118;97;108;117;101;61;34;93;9;34;32;105;100;61;34;97;233;98;9;93;34;47;62;10;9;9;60;47;120;46;121;62;10;9;9;60;120;46;121;32;118;97;108;117;101;61;34;32;34;32;95;97;61;34;34;32;120;101;115;46;118;101;114;115;105;111;110;61;34;93;34;62;10;9;9;9;60;120;46;121;47;62;10;9;9;9;60;108;111;103;32;95;97;61;34;97;34;47;62;10;9;9;9;60;115;116;114;105;110;103;32;120;101;115;46;118;101;114;115;105;111;110;61;34;97;38;97;109;112;59;34;32;105;100;61;34;39;38;108;116;59;98;34;47;62;10;9;9;60;47;120;46;121;62;10;9;60;47;65;62;10;9;60;120;46;121;32;118;97;108;117;101;61;34;233;98;39;233;38;103;116;59;13;34;32;105;100;61;34;34;32;120;101;115;46;118;101;114;115;105;111;110;61;34;98;13;128512;38;103;116;59;34;62;10;9;9;60;108;111;103;32;107;101;121;61;34;128512;93;9;97;34;32;95;97;61;34;233;34;32;118;97;108;117;101;61;34;10;97;128512;38;103;116;59;34;62;10;9;9;9;60;65;32;118;97;108;117;101;61;34;38;103;116;59;32;13;34;32;107;101;121;61;34;38;103;116;59;9;9;34;32;105;100;61;34;38;97;109;112;59;38;108;116;59;13;38;97;109;112;59;38;113;117;111;116;59;34;47;62;10;9;9;9;60;115;116;114;105;110;103;32;95;97;61;34;233;233;38;108;116;59;38;97;109;112;59;34;32;120;101;115;46;118;101;114;115;105;111;110;61;34;32;38;108;116;59;38;103;116;59;39;128512;34;47;62;10;9;9;60;47;108;111;103;62;10;9;9;60;108;111;103;32;95;97;61;34;38;113;117;111;116;59;34;32;105;100;61;34;97;233;34;62;10;9;9;9;60;65;32;118;97;108;117;101;61;34;38;108;116;59;34;47;62;10;9;9;60;47;108;111;103;62;10;9;60;47;120;46;121;62;10;9;60;65;32;105;100;61;34;98;38;113;117;111;116;59;9;97;34;32;95;97;61;34;233;34;32;120;101;115;46;118;101;114;115;105;111;110;61;34;233;38;97;109;112;59;38;103;116;59;233;34;62;10;9;9;60;120;46;121;32;107;101;121;61;34;34;62;10;9;9;9;60;108;111;103;47;62;10;9;9;9;60;65;32;105;100;61;34;39;38;113;117;111;116;59;34;47;62;10;9;9;60;47;120;46;121;62;10;9;60;47;65;62;10;60;47;108;111;103;62;10]));
  (XElem [120;46;121] [] [XElem [65] [([118;97;108;117;101], [62;32;233;8232;34;9])] [XText [34;8232;98;13];XElem [115;116;114;105;110;103] [([118;97;108;117;101], [38;10])] []];XElem [115;116;114;105;110;103] [([105;100], []);([107;101;121], [32;9;8232;13;98;32])] [];XElem [108;111;103] [] [XText [13;128512;93;62];XElem [115;116;114;105;110;103] [([95;97], [])] []]], (Some [60;63;120;109;108;32;118;101;114;115;105;111;110;61;34;49;46;48;34;32;63;62;10;60;33;45;45;111;110;101;45;45;62;10;60;33;45;45;116;119;111;32;45;32;116;104;114;101;101;45;45;62;10;60;120;46;121;62;10;9;60;65;32;118;97;108;117;101;61;34;38;103;116;59;32;233;8232;38;113;117;111;116;59;9;34;62;10;9;9;38;113;117;111;116;59;8232;98;10;10;9;9;60;115;116;114;105;110;103;32;118;97;108;117;101;61;34;38;97;109;112;59;10;34;47;62;10;9;60;47;65;62;10;9;60;115;116;114;105;110;103;32;105;100;61;34;34;32;107;101;121;61;34;32;9;8232;13;98;32;34;47;62;10;9;60;108;111;103;62;10;9;9;10;128512;93;38;103;116;59;10;9;9;60;115;116;114;105;110;103;32;95;97;61;34;34;47;62;10;9;60;47;108;111;103;62;10;60;47;120;46;121;62;10]));
  (XElem [115;116;114;105;110;103] [([95;97], [38;98;97])] [XElem [65] [([107;101;121], []);([118;97;108;117;101], [60;39;32;39;62;93]);([120;101;115;46;118;101;114;115;105;111;110], [233;34])] [XElem [120;46;121] [] [XText [128512];XElem [108;111;103] [([118;97;108;117;101], [128512;128512;39;34]);([107;101;121], [9;98;93;39])] [];XElem [120;46;121] [([120;101;115;46;118;101;114;115;105;111;110], [10;97;13;62])] []]];XElem [108;111;103] [([107;101;121], [34;128512;38;98]);([118;97;108;117;101], [10;128512;10;10])] [XElem [65] [([95;97], []);([120;101;115;46;118;101;114;115;105;111;110], [97;10;8232;98;233;60])] [];XElem [115;116;114;105;110;103] [([120;101;115;46;118;101;114;115;105;111;110], [34;10;10;93;34;9]);([107;101;121], [97;39]);([95;97], [34;39])] [XText [9;32;8232];XElem [108;111;103] [([95;97], [39;8232;60;98;39;32]);([107;101;121], [])] [XText [10;62]];XElem [108;111;103] [([95;97], []);([107;101;121], [128512;10])] [XText [62;8232;32;39;62]];XElem [115;116;114;105;110;103] [] []]];XElem [120;46;121] [([95;97], [])] [XText [62;8232;98];XElem [108;111;103] [([105;100], [38])] [XText [8232];XElem [65] [([105;100], [233;9;39;34;10]);([118;97;108;117;101], [8232;62])] [XText [93;8232;9]]];XElem [108;111;103] [] []]], (Some [60;63;120;109;108;32;118;101;114;115;105;111;110;61;34;49;46;48;34;32;63;62;10;60;33;45;45;111;110;101;45;45;62;10;60;33;45;45;116;119;111;32;45;32;116;104;114;101;101;45;45;62;10;60;115;116;114;105;110;103;32;95;97;61;34;38;97;109;112;59;98;97;34;62;10;9;60;65;32;107;101;121;61;34;34;32;118;97;108;117;101;61;34;38;108;116;59;39;32;39;38;103;116;59;93;34;32;120;101;115;46;118;101;114;115;105;111;110;61;34;233;38;113;117;111;116;59;34;62;10;9;9;60;120;46;121;62;10;9;9;9;128512;10;9;9;9;60;108;111;103;32;118;97;108;117;101;61;34;128512;128512;39;38;113;117;111;116;59;34;32;107;101;121;61;34;9;98;93;39;34;47;62;10;9;9;9;60;120;46;121;32;120;101;115;46;118;101;114;115;105;111;110;61;34;10;97;13;38;103;116;59;34;47;62;10;9;9;60;47;120;46;121;62;10;9;60;47;65;62;10;9;60;108;111;103;32;107;101;121;61;34;38;113;117;111;116;59;128512;38;97;109;112;59;98;34;32;118;97;108;117;101;61;34;10;128512;10;10;34;62;10;9;9;60;65;32;95;97;61;34;34;32;120;101;115;46;118;101;114;115;105;111;110;61;34;97;10;8232;98;233;38;108;116;59;34;47;62;10;9;9;60;115;116;114;105;110;103;32;120;101;115;46;118;101;114;115;105;111;110;61;34;38;113;117;111;116;59;10;10;93;38;113;117;111;116;59;9;34;32;107;101;121;61;34;97;39;34;32;95;97;61;34;38;113;117;111;116;59;39;34;62;10;9;9;9;9;32;8232;10;9;9;9;60;108;111;103;32;95;97;61;34;39;8232;38;108;116;59;98;39;32;34;32;107;101;121;61;34;34;62;10;38;103;116;59;60;47;108;111;103;62;10;9;9;9;60;108;111;103;32;95;97;61;34;34;32;107;101;121;61;34;128512;10;34;62;38;103;116;59;8232;32;39;38;103;116;59;60;47;108;111;103;62;10;9;9;9;60;115;116;114;105;110;103;47;62;10;9;9;60;47;115;116;114;105;110;103;62;10;9;60;47;108;111;103;62;10;9;60;120;46;121;32;95;97;61;34;34;62;10;9;9;38;103;116;59;8232;98;10;9;9;60;108;111;103;32;105;100;61;34;38;97;109;112;59;34;62;10;9;9;9;8232;10;9;9;9;60;65;32;105;100;61;34;233;9;39;38;113;117;111;116;59;10;34;32;118;97;108;117;101;61;34;8232;38;103;116;59;34;62;93;8232;9;60;47;65;62;10;9;9;60;47;108;111;103;62;10;9;9;60;108;111;103;47;62;10;9;60;47;120;46;121;62;10;60;47;115;116;114;105;110;103;62;10]));
  (XElem [108;111;103] [] [XElem [115;116;114;105;110;103] [([107;101;121], [39]);([95;97], [13;128512]);([105;100], [60])] [XElem [108;111;103] [([105;100], [233;34;93;62;233;97]);([120;101;115;46;118;101;114;115;105;111;110], [13;97;34;62;9])] [XElem [108;111;103] [([95;97], [10;93;98]);([118;97;108;117;101], [32;128512;39])] [XText [93;13]]];XElem [120;46;121] [] [XElem [115;116;114;105;110;103] [([107;101;121], [13;9;8232;32]);([118;97;108;117;101], []);([120;101;115;46;118;101;114;115;105;111;110], [])] [];XElem [108;111;103] [([118;97;108;117;101], [97;233;8232;128512;98;38]);([107;101;121], [10;62]);([95;97], [128512;13;62])] [XText [9;128512;13]];XElem [65] [([118;97;108;117;101], [34;38])] []];XElem [108;111;103] [] [XText [13;38;38;98;9];XElem [120;46;121] [([120;101;115;46;118;101;114;115;105;111;110], [98;60;38;10;32]);([118;97;108;117;101], [233;128512])] [XText [32]];XElem [65] [] [XText [9;98;13;32]]]];XElem [120;46;121] [([118;97;108;117;101], [39;34;34;128512;34])] [XElem [120;46;121] [([120;101;115;46;118;101;114;115;105;111;110], [93]);([95;97], [34;62;93;128512;8232]);([118;97;108;117;101], [8232;98;93;39;10;97])] [XElem [120;46;121] [([105;100], [8232;13]);([107;101;121], [97;62;10;34;98;98]);([95;97], [32])] []]]], (Some [60;63;120;109;108;32;118;101;114;115;105;111;110;61;34;49;46;48;34;32;63;62;10;60;33;45;45;111;110;101;45;45;62;10;60;33;45;45;116;119;111;32;45;32;116;104;114;101;101;45;45;62;10;60;108;111;103;62;10;9;60;115;116;114;105;110;103;32;107;101;121;61;34;39;34;32;95;97;61;34;13;128512;34;32;105;100;61;34;38;108;116;59;34;62;10;9;9;60;108;111;103;32;105;100;61;34;233;38;113;117;111;116;59;93;38;103;116;59;233;97;34;32;120;101;115;46;118;101;114;115;105;111;110;61;34;13;97;38;113;117;111;116;59;38;103;116;59;9;34;62;10;9;9;9;60;108;111;103;32;95;97;61;34;10;93;98;34;32;118;97;108;117;101;61;34;32;128512;39;34;62;93;10;60;47;108;111;103;62;10;9;9;60;47;108;111;103;62;10;9;9;60;120;46;121;62;10;9;9;9;60;115;116;114;105;110;103;32;107;101;121;61;34;13;9;8232;32;34;32;118;97;108;117;101;61;34;34;32;120;101;115;46;118;101;114;115;105;111;110;61;34;34;47;62;10;9;9;9;60;108;111;103;32;118;97;108;117;101;61;34;97;233;8232;128512;98;38;97;109;112;59;34;32;107;101;121;61;34;10;38;103;116;59;34;32;95;97;61;34;128512;13;38;103;116;59;34;62;9;128512;10;60;47;108;111;103;62;10;9;9;9;60;65;32;118;97;108;117;101;61;34;38;113;117;111;116;59;38;97;109;112;59;34;47;62;10;9;9;60;47;120;46;121;62;10;9;9;60;108;111;103;62;10;9;9;9;10;38;97;109;112;59;38;97;109;112;59;98;9;10;9;9;9;60;120;46;121;32;120;101;115;46;118;101;114;115;105;111;110;61;34;98;38;108;116;59;38;97;109;112;59;10;32;34;32;118;97;108;117;101;61;34;233;128512;34;62;32;60;47;120;46;121;62;10;9;9;9;60;65;62;9;98;10;32;60;47;65;62;10;9;9;60;47;108;111;103;62;10;9;60;47;115;116;114;105;110;103;62;10;9;60;120;46;121;32;118;97;108;117;101;61;34;39;38;113;117;111;116;59;38;113;117;111;116;59;128512;38;113;117;111;116;59;34;62;10;9;9;60;120;46;121;32;120;101;115;46;118;101;114;115;105;111;110;61;34;93;34;32;95;97;61;34;38;113;117;111;116;59;38;103;116;59;93;128512;8232;34;32;118;97;108;117;101;61;34;8232;98;93;39;10;97;34;62;10;9;9;9;60;120;46;121;32;105;100;61;34;8232;13;34;32;107;101;121;61;34;97;38;103;116;59;10;38;113;117;111;116;59;98;98;34;32;95;97;61;34;32;34;47;62;10;9;9;60;47;120;46;121;62;10;9;60;47;120;46;121;62;10;60;47;108;111;103;62;10]));
  (XElem [108;111;103] [([105;100], [128512;9;32;93;38;9]);([95;97], [62;9;233;10;98]);([118;97;108;117;101], [])] [XElem [120;46;121] [([105;100], [97;38])] [XText [38;60;62;97;8232];XElem [65] [([120;101;115;46;118;101;114;115;105;111;110], [34;32;62;13]);([95;97], [39;97;34;10;38;9]);([107;101;121], [])] [XElem [108;111;103] [([118;97;108;117;101], [38;128512;97;233;62]);([120;101;115;46;118;101;114;115;105;111;110], [60;8232;60;38;8232])] [XText [9;38;93;34;128512]];XElem [120;46;121] [] [];XElem [65] [] []];XElem [120;46;121] [] [XText [233;39]]];XElem [115;116;114;105;110;103] [([105;100], [32;32;32;8232]);([95;97], [128512;10;13;32]);([118;97;108;117;101], [39;34;128512;128512;32;13])] [];XElem [120;46;121] [([95;97], []);([120;101;115;46;118;101;114;115;105;111;110], [])] [XElem [108;111;103] [([107;101;121], [13;34]);([95;97], [10;233;32;38])] [XElem [65] [([105;100], [34;10;93;60;10]);([120;101;115;46;118;101;114;115;105;111;110], [39;98;39;9;9;8232])] [];XElem [65] [([107;101;121], [10;34]);([120;101;115;46;118;101;114;115;105;111;110], [97;13;32;39]);([118;97;108;117;101], [])] []];XElem [120;46;121] [([95;97], [10;98;62;128512;8232;34])] [XElem [115;116;114;105;110;103] [([95;97], [233;233;34;98;8232;60])] [];XElem [65] [([95;97], [60;60;233;32;34]);([105;100], [34;98;93;60;8232;10])] [XText [32;98;34;8232;60]]]]], (Some [60;63;120;109;108;32;118;101;114;115;105;111;110;61;34;49;46;48;34;32;63;62;10;60;33;45;45;111;110;101;45;45;62;10;60;33;45;45;116;119;111;32;45;32;116;104;114;101;101;45;45;62;10;60;108;111;103;32;105;100;61;34;128512;9;32;93;38;97;109;112;59;9;34;32;95;97;61;34;38;103;116;59;9;233;10;98;34;32;118;97;108;117;101;61;34;34;62;10;9;60;120;46;121;32;105;100;61;34;97;38;97;109;112;59;34;62;10;9;9;38;97;109;112;59;38;108;116;59;38;103;116;59;97;8232;10;9;9;60;65;32;120;101;115;46;118;101;114;115;105;111;110;61;34;38;113;117;111;116;59;32;38;103;116;59;13;34;32;95;97;61;34;39;97;38;113;117;111;116;59;10;38;97;109;112;59;9;34;32;107;101;121;61;34;34;62;10;9;9;9;60;108;111;103;32;118;97;108;117;101;61;34;38;97;109;112;59;128512;97;233;38;103;116;59;34;32;120;101;115;46;118;101;114;115;105;111;110;61;34;38;108;116;59;8232;38;108;116;59;38;97;109;112;59;8232;34;62;9;38;97;109;112;59;93;38;113;117;111;116;59;128512;60;47;108;111;103;62;10;9;9;9;60;120;46;121;47;62;10;9;9;9;60;65;47;62;10;9;9;60;47;65;62;10;9;9;60;120;46;121;62;233;39;60;47;120;46;121;62;10;9;60;47;120;46;121;62;10;9;60;115;116;114;105;110;103;32;105;100;61;34;32;32;32;8232;34;32;95;97;61;34;128512;10;13;32;34;32;118;97;108;117;101;61;34;39;38;113;117;111;116;59;128512;128512;32;13;34;47;62;10;9;60;120;46;121;32;95;97;61;34;34;32;120;101;115;46;118;101;114;115;105;111;110;61;34;34;62;10;9;9;60;108;111;103;32;107;101;121;61;34;13;38;113;117;111;116;59;34;32;95;97;61;34;10;233;32;38;97;109;112;59;34;62;10;9;9;9;60;65;32;105;100;61;34;38;113;117;111;116;59;10;93;38;108;116;59;10;34;32;120;101;115;46;118;101;114;115;105;111;110;61;34;39;98;39;9;9;8232;34;47;62;10;9;9;9;60;65;32;107;101;121;61;34;10;38;113;117;111;116;59;34;32;120;101;115;46;118;101;114;115;105;111;110;61;34;97;13;32;39;34;32;118;97;108;117;101;61;34;34;47;62;10;9;9;60;47;108;111;103;62;10;9;9;60;120;46;121;32;95;97;61;34;10;98;38;103;116;59;128512;8232;38;113;117;111;116;59;34;62;10;9;9;9;60;115;116;114;105;110;103;32;95;97;61;34;233;233;38;113;117;111;116;59;98;8232;38;108;116;59;34;47;62;10;9;9;9;60;65;32;95;97;61;34;38;108;116;59;38;108;116;59;233;32;38;113;117;111;116;59;34;32;105;100;61;34;38;113;117;111;116;59;98;93;38;108;116;59;8232;10;34;62;32;98;38;113;117;111;116;59;8232;38;108;116;59;60;47;65;62;10;9;9;60;47;120;46;121;62;10;9;60;47;120;46;121;62;10;60;47;108;111;103;62;10]));
  (XElem [65] [([105;100], [97;10]);([107;101;121], [13])] [XElem [120;46;121] [] [XText [9;10];XElem [108;111;103] [([120;101;115;46;118;101;114;115;105;111;110], [10;32]);([118;97;108;117;101], [])] [XElem [115;116;114;105;110;103] [([107;101;121], [9;97;60]);([105;100], []);([118;97;108;117;101], [])] [];XElem [65] [([95;97], [34;39;128512;98]);([118;97;108;117;101], [128512;39;60])] []];XElem [65] [] [XElem [120;46;121] [([105;100], [97]);([118;97;108;117;101], [38;13])] [XText [13]];XElem [65] [([118;97;108;117;101], [32;233])] []]];XElem [65] [([120;101;115;46;118;101;114;115;105;111;110], []);([118;97;108;117;101], [34;98;128512;34;32]);([105;100], [128512;60;128512])] [XText [128512;128512;13]]], (Some [60;63;120;109;108;32;118;101;114;115;105;111;110;61;34;49;46;48;34;32;63;62;10;60;33;45;45;111;110;101;45;45;62;10;60;33;45;45;116;119;111;32;45;32;116;104;114;101;101;45;45;62;10;60;65;32;105;100;61;34;97;10;34;32;107;101;121;61;34;13;34;62;10;9;60;120;46;121;62;10;9;9;9;10;10;9;9;60;108;111;103;32;120;101;115;46;118;101;114;115;105;111;110;61;34;10;32;34;32;118;97;108;117;101;61;34;34;62;10;9;9;9;60;115;116;114;105;110;103;32;107;101;121;61;34;9;97;38;108;116;59;34;32;105;100;61;34;34;32;118;97;108;117;101;61;34;34;47;62;10;9;9;9;60;65;32;95;97;61;34;38;113;117;111;116;59;39;128512;98;34;32;118;97;108;117;101;61;34;128512;39;38;108;116;59;34;47;62;10;9;9;60;47;108;111;103;62;10;9;9;60;65;62;10;9;9;9;60;120;46;121;32;105;100;61;34;97;34;32;118;97;108;117;101;61;34;38;97;109;112;59;13;34;62;10;60;47;120;46;121;62;10;9;9;9;60;65;32;118;97;108;117;101;61;34;32;233;34;47;62;10;9;9;60;47;65;62;10;9;60;47;120;46;121;62;10;9;60;65;32;120;101;115;46;118;101;114;115;105;111;110;61;34;34;32;118;97;108;117;101;61;34;38;113;117;111;116;59;98;128512;38;113;117;111;116;59;32;34;32;105;100;61;34;128512;38;108;116;59;128512;34;62;128512;128512;10;60;47;65;62;10;60;47;65;62;10]));
  (XElem [120;46;121] [] [], (Some [60;63;120;109;108;32;118;101;114;115;105;111;110;61;34;49;46;48;34;32;63;62;10;60;33;45;45;111;110;101;45;45;62;10;60;33;45;45;116;119;111;32;45;32;116;104;114;101;101;45;45;62;10;60;120;46;121;47;62;10]));
  (XElem [108;111;103] [([105;100], [32;62;97]);([95;97], [9])] [XText [9;98;10;38];XElem [108;111;103] [([105;100], [])] [XText [34;38];XElem [115;116;114;105;110;103] [([120;101;115;46;118;101;114;115;105;111;110], [13;62;98;62;32;93]);([95;97], [])] [XText [9;39]];XElem [115;116;114;105;110;103] [([105;100], [34]);([95;97], [8232;39])] [XText [93;10;98;98;38];XElem [120;46;121] [([120;101;115;46;118;101;114;115;105;111;110], [62]);([95;97], [97;93;38;97])] [XText [39]];XElem [108;111;103] [([95;97], [60;10;13;98;128512;8232])] [];XElem [115;116;114;105;110;103] [([95;97], [8232;9;9;13;97;93])] []];XElem [65] [] [XElem [65] [([120;101;115;46;118;101;114;115;105;111;110], [8232;62;8232]);([118;97;108;117;101], [9;62]);([95;97], [62;97;93;39;34;97])] []]];XElem [120;46;121] [([107;101;121], [8232])] [XText [97;32;93]];XElem [108;111;103] [([95;97], [])] [XText [128512];XElem [65] [] [XText [60];XElem [108;111;103] [] [XText [34;13;8232]];XElem [115;116;114;105;110;103] [] [XText [8232;38;233;97]]];XElem [115;116;114;105;110;103] [([95;97], []);([105;100], [128512;38]);([118;97;108;117;101], [60;93;98;34])] [XText [93;8232;8232];XElem [108;111;103] [] [];XElem [115;116;114;105;110;103] [([107;101;121], [93;9;34;10;93]);([120;101;115;46;118;101;114;115;105;111;110], [13;34])] [XText [233;8232;38]]]]], (Some [60;63;120;109;108;32;118;101;114;115;105;111;110;61;34;49;46;48;34;32;63;62;10;60;33;45;45;111;110;101;45;45;62;10;60;33;45;45;116;119;111;32;45;32;116;104;114;101;101;45;45;62;10;60;108;111;103;32;105;100;61;34;32;38;103;116;59;97;34;32;95;97;61;34;9;34;62;10;9;9;98;10;38;97;109;112;59;10;9;60;108;111;103;32;105;100;61;34;34;62;10;9;9;38;113;117;111;116;59;38;97;109;112;59;10;9;9;60;115;116;114;105;110;103;32;120;101;115;46;118;101;114;115;105;111;110;61;34;13;38;103;116;59;98;38;103;116;59;32;93;34;32;95;97;61;34;34;62;9;39;60;47;115;116;114;105;110;103;62;10;9;9;60;115;116;114;105;110;103;32;105;100;61;34;38;113;117;111;116;59;34;32;95;97;61;34;8232;39;34;62;10;9;9;9;93;10;98;98;38;97;109;112;59;10;9;9;9;60;120;46;121;32;120;101;115;46;118;101;114;115;105;111;110;61;34;38;103;116;59;34;32;95;97;61;34;97;93;38;97;109;112;59;97;34;62;39;60;47;120;46;121;62;10;9;9;9;60;108;111;103;32;95;97;61;34;38;108;116;59;10;13;98;128512;8232;34;47;62;10;9;9;9;60;115;116;114;105;110;103;32;95;97;61;34;8232;9;9;13;97;93;34;47;62;10;9;9;60;47;115;116;114;105;110;103;62;10;9;9;60;65;62;10;9;9;9;60;65;32;120;101;115;46;118;101;114;115;105;111;110;61;34;8232;38;103;116;59;8232;34;32;118;97;108;117;101;61;34;9;38;103;116;59;34;32;95;97;61;34;38;103;116;59;97;93;39;38;113;117;111;116;59;97;34;47;62;10;9;9;60;47;65;62;10;9;60;47;108;111;103;62;10;9;60;120;46;121;32;107;101;121;61;34;8232;34;62;97;32;93;60;47;120;46;121;62;10;9;60;108;111;103;32;95;97;61;34;34;62;10;9;9;128512;10;9;9;60;65;62;10;9;9;9;38;108;116;59;10;9;9;9;60;108;111;103;62;38;113;117;111;116;59;10;8232;60;47;108;111;103;62;10;9;9;9;60;115;116;114;105;110;103;62;8232;38;97;109;112;59;233;97;60;47;115;116;114;105;110;103;62;10;9;9;60;47;65;62;10;9;9;60;115;116;114;105;110;103;32;95;97;61;34;34;32;105;100;61;34;128512;38;97;109;112;59;34;32;118;97;108;117;101;61;34;38;108;116;59;93;98;38;113;117;111;116;59;34;62;10;9;9;9;93;8232;8232;10;9;9;9;60;108;111;103;47;62;10;9;9;9;60;115;116;114;105;110;103;32;107;101;121;61;34;93;9;38;113;117;111;116;59;10;93;34;32;120;101;115;46;118;101;114;115;105;111;110;61;34;13;38;113;117;111;116;59;34;62;233;8232;38;97;109;112;59;60;47;115;116;114;105;110;103;62;10;9;9;60;47;115;116;114;105;110;103;62;10;9;60;47;108;111;103;62;10;60;47;108;111;103;62;10]));
  (XElem [108;111;103] [([105;100], [13;97;62])] [XElem [115;116;114;105;110;103] [] [];XElem [120;46;121] [] [XText [98;34;34;97;38];XElem [115;116;114;105;110;103] [([107;101;121], [34;39;34;128512;97;60]);([95;97], [60;98;98])] [XElem [120;46;121] [] []];XElem [108;111;103] [([107;101;121], [60;233;128512;9])] [XElem [108;111;103] [([120;101;115;46;118;101;114;115;105;111;110], [233;128512])] [XText [97;98;39;233]];XElem [108;111;103] [([120;101;115;46;118;101;114;115;105;111;110], []);([105;100], [13;97])] []];XElem [65] [([118;97;108;117;101], []);([95;97], [38;93;98;38]);([120;101;115;46;118;101;114;115;105;111;110], [38])] [XElem [120;46;121] [([107;101;121], [])] [XText [34]];XElem [115;116;114;105;110;103] [([95;97], [62;10;9;9;10;128512])] []]];XElem [108;111;103] [([118;97;108;117;101], [])] [XElem [108;111;103] [([95;97], [34;128512;39]);([105;100], [8232;62;233;128512]);([120;101;115;46;118;101;114;115;105;111;110], [60])] [XText [39;38];XElem [108;111;103] [([95;97], [97;39;34;38;13])] [];XElem [120;46;121] [] [];XElem [115;116;114;105;110;103] [([95;97], [60;10;8232;98;62]);([107;101;121], [39;34;97;10;233]);([105;100], [39;8232])] []];XElem [115;116;114;105;110;103] [([107;101;121], [34]);([118;97;108;117;101], [128512]);([95;97], [38;233])] [];XElem [65] [([105;100], []);([118;97;108;117;101], []);([107;101;121], [8232;8232])] [XText [62;128512;34;98];XElem [108;111;103] [] [XText [233;97;128512;13]];XElem [115;116;114;105;110;103] [([107;101;121], []);([95;97], [233])] [XText [62;39;62]]]]], (Some [60;63;120;109;108;32;118;101;114;115;105;111;110;61;34;49;46;48;34;32;63;62;10;60;33;45;45;111;110;101;45;45;62;10;60;33;45;45;116;119;111;32;45;32;116;104;114;101;101;45;45;62;10;60;108;111;103;32;105;100;61;34;13;97;38;103;116;59;34;62;10;9;60;115;116;114;105;110;103;47;62;10;9;60;120;46;121;62;10;9;9;98;38;113;117;111;116;59;38;113;117;111;116;59;97;38;97;109;112;59;10;9;9;60;115;116;114;105;110;103;32;107;101;121;61;34;38;113;117;111;116;59;39;38;113;117;111;116;59;128512;97;38;108;116;59;34;32;95;97;61;34;38;108;116;59;98;98;34;62;10;9;9;9;60;120;46;121;47;62;10;9;9;60;47;115;116;114;105;110;103;62;10;9;9;60;108;111;103;32;107;101;121;61;34;38;108;116;59;233;128512;9;34;62;10;9;9;9;60;108;111;103;32;120;101;115;46;118;101;114;115;105;111;110;61;34;233;128512;34;62;97;98;39;233;60;47;108;111;103;62;10;9;9;9;60;108;111;103;32;120;101;115;46;118;101;114;115;105;111;110;61;34;34;32;105;100;61;34;13;97;34;47;62;10;9;9;60;47;108;111;103;62;10;9;9;60;65;32;118;97;108;117;101;61;34;34;32;95;97;61;34;38;97;109;112;59;93;98;38;97;109;112;59;34;32;120;101;115;46;118;101;114;115;105;111;110;61;34;38;97;109;112;59;34;62;10;9;9;9;60;120;46;121;32;107;101;121;61;34;34;62;38;113;117;111;116;59;60;47;120;46;121;62;10;9;9;9;60;115;116;114;105;110;103;32;95;97;61;34;38;103;116;59;10;9;9;10;128512;34;47;62;10;9;9;60;47;65;62;10;9;60;47;120;46;121;62;10;9;60;108;111;103;32;118;97;108;117;101;61;34;34;62;10;9;9;60;108;111;103;32;95;97;61;34;38;113;117;111;116;59;128512;39;34;32;105;100;61;34;8232;38;103;116;59;233;128512;34;32;120;101;115;46;118;101;114;115;105;111;110;61;34;38;108;116;59;34;62;10;9;9;9;39;38;97;109;112;59;10;9;9;9;60;108;111;103;32;95;97;61;34;97;39;38;113;117;111;116;59;38;97;109;112;59;13;34;47;62;10;9;9;9;60;120;46;121;47;62;10;9;9;9;60;115;116;114;105;110;103;32;95;97;61;34;38;108;116;59;10;8232;98;38;103;116;59;34;32;107;101;121;61;34;39;38;113;117;111;116;59;97;10;233;34;32;105;100;61;34;39;8232;34;47;62;10;9;9;60;47;108;111;103;62;10;9;9;60;115;116;114;105;110;103;32;107;101;121;61;34;38;113;117;111;116;59;34;32;118;97;108;117;101;61;34;128512;34;32;95;97;61;34;38;97;109;112;59;233;34;47;62;10;9;9;60;65;32;105;100;61;34;34;32;118;97;108;117;101;61;34;34;32;107;101;121;61;34;8232;8232;34;62;10;9;9;9;38;103;116;59;128512;38;113;117;111;116;59;98;10;9;9;9;60;108;111;103;62;233;97;128512;10;60;47;108;111;103;62;10;9;9;9;60;115;116;114;105;110;103;32;107;101;121;61;34;34;32;95;97;61;34;233;34;62;38;103;116;59;39;38;103;116;59;60;47;115;116;114;105;110;103;62;10;9;9;60;47;65;62;10;9;60;47;108;111;103;62;10;60;47;108;111;103;62;10]));
  (XElem [115;116;114;105;110;103] [([118;97;108;117;101], [34;38;34;8232;233;233]);([120;101;115;46;118;101;114;115;105;111;110], [62;32]);([95;97], [39])] [XElem [120;46;121] [] [XElem [120;46;121] [([95;97], [97;10]);([120;101;115;46;118;101;114;115;105;111;110], [])] [XElem [120;46;121] [([118;97;108;117;101], [9;32;34;9;38]);([120;101;115;46;118;101;114;115;105;111;110], [13;128512;38;38;38;13]);([95;97], [38;10;98;34;38])] []];XElem [108;111;103] [([118;97;108;117;101], []);([107;101;121], []);([120;101;115;46;118;101;114;115;105;111;110], [60;9;32;13])] [XText [10;13];XElem [65] [([107;101;121], []);([118;97;108;117;101], [10;97;97;39;62;10])] [];XElem [120;46;121] [([107;101;121], [233;93]);([120;101;115;46;118;101;114;115;105;111;110], [13;39])] [];XElem [120;46;121] [([105;100], [39;32;62;62])] [XText [93;13]]]];XElem [120;46;121] [([95;97], [9;32;34;98;65534;11])] [XElem [120;46;121] [] [];XElem [108;111;103] [([120;101;115;46;118;101;114;115;105;111;110], [])] [XText [13;233;38;97];XElem [120;46;121] [] [XText [10;233]]];XElem [108;111;103] [([120;101;115;46;118;101;114;115;105;111;110], [97;62;8232;10])] [XText [32;8232;60]]]], None);
  (XElem [108;111;103] [([118;97;108;117;101], [10]);([107;101;121], [10;98;233;10;10;13]);([95;97], [9;38;97;128512;39;97])] [XElem [108;111;103] [([105;100], [233;93])] [XElem [120;46;121] [([120;101;115;46;118;101;114;115;105;111;110], [62;34;233]);([95;97], [13;32;34;9])] [XText [62;60;32;62;10];XElem [120;46;121] [] [];XElem [108;111;103] [] []];XElem [108;111;103] [([105;100], [32;39;32;98]);([118;97;108;117;101], [32;13;98;38;10;93]);([120;101;115;46;118;101;114;115;105;111;110], [13;60;8232;128512;8232;98])] [XText [10;8232;9;128512;10];XElem [115;116;114;105;110;103] [([107;101;121], [38;60;233;93])] [];XElem [120;46;121] [([120;101;115;46;118;101;114;115;105;111;110], [128512;97;39;60;60]);([105;100], [128512]);([107;101;121], [233;97;93;128512;32])] []];XElem [65] [([107;101;121], [62])] [XText [128512;97];XElem [65] [([95;97], [38;34;233]);([120;101;115;46;118;101;114;115;105;111;110], [8232]);([118;97;108;117;101], [98;13;62;13;93;98])] [XText [34;62;32;62]];XElem [65] [([120;101;115;46;118;101;114;115;105;111;110], [8232;93;98;93;60]);([105;100], [9;128512;97;34;128512]);([95;97], [8232;13;10;39;10;60])] [];XElem [120;46;121] [([118;97;108;117;101], [32;39;128512;39;93;34]);([120;101;115;46;118;101;114;115;105;111;110], [97;62]);([107;101;121], [39;98;9;233;93])] []]];XElem [65] [([107;101;121], [13;93;233;98;13;9])] []], (Some [60;63;120;109;108;32;118;101;114;115;105;111;110;61;34;49;46;48;34;32;63;62;10;60;33;45;45;111;110;101;45;45;62;10;60;33;45;45;116;119;111;32;45;32;116;104;114;101;101;45;45;62;10;60;108;111;103;32;118;97;108;117;101;61;34;10;34;32;107;101;121;61;34;10;98;233;10;10;13;34;32;95;97;61;34;9;38;97;109;112;59;97;128512;39;97;34;62;10;9;60;108;111;103;32;105;100;61;34;233;93;34;62;10;9;9;60;120;46;121;32;120;101;115;46;118;101;114;115;105;111;110;61;34;38;103;116;59;38;113;117;111;116;59;233;34;32;95;97;61;34;13;32;38;113;117;111;116;59;9;34;62;10;9;9;9;38;103;116;59;38;108;116;59;32;38;103;116;59;10;10;9;9;9;60;120;46;121;47;62;10;9;9;9;60;108;111;103;47;62;10;9;9;60;47;120;46;121;62;10;9;9;60;108;111;103;32;105;100;61;34;32;39;32;98;34;32;118;97;108;117;101;61;34;32;13;98;38;97;109;112;59;10;93;34;32;120;101;115;46;118;101;114;115;105;111;110;61;34;13;38;108;116;59;8232;128512;8232;98;34;62;10;9;9;9;10;8232;9;128512;10;10;9;9;9;60;115;116;114;105;110;103;32;107;101;121;61;34;38;97;109;112;59;38;108;116;59;233;93;34;47;62;10;9;9;9;60;120;46;121;32;120;101;115;46;118;101;114;115;105;111;110;61;34;128512;97;39;38;108;116;59;38;108;116;59;34;32;105;100;61;34;128512;34;32;107;101;121;61;34;233;97;93;128512;32;34;47;62;10;9;9;60;47;108;111;103;62;10;9;9;60;65;32;107;101;121;61;34;38;103;116;59;34;62;10;9;9;9;128512;97;10;9;9;9;60;65;32;95;97;61;34;38;97;109;112;59;38;113;117;111;116;59;233;34;32;120;101;115;46;118;101;114;115;105;111;110;61;34;8232;34;32;118;97;108;117;101;61;34;98;13;38;103;116;59;13;93;98;34;62;38;113;117;111;116;59;38;103;116;59;32;38;103;116;59;60;47;65;62;10;9;9;9;60;65;32;120;101;115;46;118;101;114;115;105;111;110;61;34;8232;93;98;93;38;108;116;59;34;32;105;100;61;34;9;128512;97;38;113;117;111;116;59;128512;34;32;95;97;61;34;8232;13;10;39;10;38;108;116;59;34;47;62;10;9;9;9;60;120;46;121;32;118;97;108;117;101;61;34;32;39;128512;39;93;38;113;117;111;116;59;34;32;120;101;115;46;118;101;114;115;105;111;110;61;34;97;38;103;116;59;34;32;107;101;121;61;34;39;98;9;233;93;34;47;62;10;9;9;60;47;65;62;10;9;60;47;108;111;103;62;10;9;60;65;32;107;101;121;61;34;13;93;233;98;13;9;34;47;62;10;60;47;108;111;103;62;10]));
  (XElem [120;46;121] [([95;97], [98;38])] [XElem [65] [([105;100], []);([95;97], [34;8232;93;98])] [];XElem [108;111;103] [([107;101;121], [62])] [XText [10;97];XElem [108;111;103] [([95;97], [98;13;93])] [XText [233;60;9];XElem [120;46;121] [] [XText [8232;38;32;13]];XElem [115;116;114;105;110;103] [([95;97], [98;62;98;9]);([107;101;121], [9;97;1;38]);([118;97;108;117;101], [38;98;39])] []];XElem [115;116;114;105;110;103] [] [XElem [65] [([107;101;121], [10;60;39;13;97;128512]);([95;97], []);([105;100], [34;13;128512;97;10])] []]]], None);
  (XElem [120;46;121] [([95;97], [13;93;233;34]);([118;97;108;117;101], [13;97;39;38;97;62])] [XElem [115;116;114;105;110;103] [([118;97;108;117;101], []);([105;100], [98;10])] [XElem [120;46;121] [([107;101;121], [93;98;32])] [XText [128512]]];XElem [65] [([105;100], [93;34;39;13])] [XText [60;34;38]];XElem [115;116;114;105;110;103] [] [XText [97;128512;39;233;10];XElem [65] [] [XElem [65] [([118;97;108;117;101], [32;60;60])] []];XElem [120;46;121] [([120;101;115;46;118;101;114;115;105;111;110], [13;9;13])] [XText [10;93;13;128512];XElem [65] [([120;101;115;46;118;101;114;115;105;111;110], [38])] []];XElem [115;116;114;105;110;103] [([107;101;121], [10;9;97;233;233]);([95;97], [93;60;60]);([120;101;115;46;118;101;114;115;105;111;110], [13;10])] [XElem [108;111;103] [([107;101;121], [233;97;93]);([95;97], [8232])] [XText [233;233;13;8232;97]]]]], (Some [60;63;120;109;108;32;118;101;114;115;105;111;110;61;34;49;46;48;34;32;63;62;10;60;33;45;45;111;110;101;45;45;62;10;60;33;45;45;116;119;111;32;45;32;116;104;114;101;101;45;45;62;10;60;120;46;121;32;95;97;61;34;13;93;233;38;113;117;111;116;59;34;32;118;97;108;117;101;61;34;13;97;39;38;97;109;112;59;97;38;103;116;59;34;62;10;9;60;115;116;114;105;110;103;32;118;97;108;117;101;61;34;34;32;105;100;61;34;98;10;34;62;10;9;9;60;120;46;121;32;107;101;121;61;34;93;98;32;34;62;128512;60;47;120;46;121;62;10;9;60;47;115;116;114;105;110;103;62;10;9;60;65;32;105;100;61;34;93;38;113;117;111;116;59;39;13;34;62;38;108;116;59;38;113;117;111;116;59;38;97;109;112;59;60;47;65;62;10;9;60;115;116;114;105;110;103;62;10;9;9;97;128512;39;233;10;10;9;9;60;65;62;10;9;9;9;60;65;32;118;97;108;117;101;61;34;32;38;108;116;59;38;108;116;59;34;47;62;10;9;9;60;47;65;62;10;9;9;60;120;46;121;32;120;101;115;46;118;101;114;115;105;111;110;61;34;13;9;13;34;62;10;9;9;9;10;93;10;128512;10;9;9;9;60;65;32;120;101;115;46;118;101;114;115;105;111;110;61;34;38;97;109;112;59;34;47;62;10;9;9;60;47;120;46;121;62;10;9;9;60;115;116;114;105;110;103;32;107;101;121;61;34;10;9;97;233;233;34;32;95;97;61;34;93;38;108;116;59;38;108;116;59;34;32;120;101;115;46;118;101;114;115;105;111;110;61;34;13;10;34;62;10;9;9;9;60;108;111;103;32;107;101;121;61;34;233;97;93;34;32;95;97;61;34;8232;34;62;233;233;10;8232;97;60;47;108;111;103;62;10;9;9;60;47;115;116;114;105;110;103;62;10;9;60;47;115;116;114;105;110;103;62;10;60;47;120;46;121;62;10]));
  (XElem [115;116;114;105;110;103] [([118;97;108;117;101], [10;8232;98;60;10;9])] [XText [10;10;39]], (Some [60;63;120;109;108;32;118;101;114;115;105;111;110;61;34;49;46;48;34;32;63;62;10;60;33;45;45;111;110;101;45;45;62;10;60;33;45;45;116;119;111;32;45;32;116;104;114;101;101;45;45;62;10;60;115;116;114;105;110;103;32;118;97;108;117;101;61;34;10;8232;98;38;108;116;59;10;9;34;62;10;10;39;60;47;115;116;114;105;110;103;62;10]));
  (XElem [120;46;121] [] [], (Some [60;63;120;109;108;32;118;101;114;115;105;111;110;61;34;49;46;48;34;32;63;62;10;60;33;45;45;111;110;101;45;45;62;10;60;33;45;45;116;119;111;32;45;32;116;104;114;101;101;45;45;62;10;60;120;46;121;47;62;10]));
  (XElem [115;116;114;105;110;103] [([118;97;108;117;101], [128512;97;13;38]);([105;100], [32;38;98])] [XText [128512;13;128512;93;98]], (Some [60;63;120;109;108;32;118;101;114;115;105;111;110;61;34;49;46;48;34;32;63;62;10;60;33;45;45;111;110;101;45;45;62;10;60;33;45;45;116;119;111;32;45;32;116;104;114;101;101;45;45;62;10;60;115;116;114;105;110;103;32;118;97;108;117;101;61;34;128512;97;13;38;97;109;112;59;34;32;105;100;61;34;32;38;97;109;112;59;98;34;62;128512;10;128512;93;98;60;47;115;116;114;105;110;103;62;10]));
  (XElem [108;111;103] [] [], (Some [60;63;120;109;108;32;118;101;114;115;105;111;110;61;34;49;46;48;34;32;63;62;10;60;33;45;45;111;110;101;45;45;62;10;60;33;45;45;116;119;111;32;45;32;116;104;114;101;101;45;45;62;10;60;108;111;103;47;62;10]))
].
Example agree_xml_write : forallb (fun '(x, r) => optstr_eqb (write_xml xml_comments x) r) cases_xml_write = true.
Proof. vm_compute. reflexivity. Qed.

(** [xml.sax] on documents as the writers make them, some with a character lost or doubled; adjacent texts joined *)
Definition cases_xml_read : list (pystr * option (list sax)) := [
  ([60;115;116;114;105;110;103;32;120;101;115;46;118;101;114;115;105;111;110;61;34;38;97;109;112;59;38;35;48;57;59;233;38;97;109;112;59;32;38;35;49;51;59;34;32;107;101;121;61;34;32;128512;38;35;49;51;59;233;38;35;48;57;59;98;34;32;47;62], (Some [SStart [115;116;114;105;110;103] [([120;101;115;46;118;101;114;115;105;111;110], [38;9;233;38;32;13]);([107;101;121], [32;128512;13;233;9;98])];SEnd [115;116;114;105;110;103]]));
  ([60;65;32;47;62], (Some [SStart [65] [];SEnd [65]]));
  ([60;63;120;109;108;32;118;101;114;115;105;111;110;61;34;49;46;48;34;32;63;62;10;60;33;45;45;111;110;101;45;45;62;10;60;33;45;45;116;119;111;32;45;32;116;104;114;101;101;45;45;62;10;60;115;116;114;105;110;103;32;120;101;115;46;118;101;114;115;105;111;110;61;34;93;128512;38;108;116;59;38;113;117;111;116;59;38;97;109;112;59;34;32;95;97;61;34;34;47;62;10], (Some [SStart [115;116;114;105;110;103] [([120;101;115;46;118;101;114;115;105;111;110], [93;128512;60;34;38]);([95;97], [])];SEnd [115;116;114;105;110;103]]));
  ([60;63;120;109;108;32;118;101;114;115;105;111;110;61;34;49;46;48;34;32;63;62;10;60;33;45;45;111;110;101;45;45;62;10;60;33;45;45;116;119;111;32;45;32;116;104;114;101;101;45;45;62;10;60;65;32;107;101;121;61;34;8232;32;34;32;95;97;61;34;39;38;103;116;59;38;97;109;112;59;233;34;62;10;9;10;38;103;116;59;10;38;108;116;59;10;10;9;60;115;116;114;105;110;103;32;107;101;121;61;34;32;38;108;116;59;38;113;117;111;116;59;32;97;34;32;95;97;61;34;38;97;109;112;59;233;38;108;116;59;34;62;10;9;9;60;108;111;103;32;120;101;115;46;118;101;114;115;105;111;110;61;34;8232;38;108;116;59;38;113;117;111;116;59;93;128512;34;47;62;10;9;60;47;115;116;114;105;110;103;62;10;9;60;115;116;114;105;110;103;32;118;97;108;117;101;61;34;128512;32;34;62;10;9;9;38;113;117;111;116;59;98;10;9;9;60;108;111;103;32;107;101;121;61;34;38;97;109;112;59;8232;98;34;32;95;97;61;34;93;38;108;116;59;233;13;9;38;103;116;59;34;32;120;101;115;46;118;101;114;115;105;111;110;61;34;93;93;9;93;34;47;62;10;9;60;47;115;116;114;105;110;103;62;10;9;60;120;46;121;32;120;101;115;46;118;101;114;115;105;111;110;61;34;97;32;10;97;38;113;117;111;116;59;34;32;118;97;108;117;101;61;34;38;108;116;59;34;47;62;10;60;47;65;62;10], (Some [SStart [65] [([107;101;121], [8232;32]);([95;97], [39;62;38;233])];SChars [10;9;10;62;10;60;10;10;9];SStart [115;116;114;105;110;103] [([107;101;121], [32;60;34;32;97]);([95;97], [38;233;60])];SChars [10;9;9];SStart [108;111;103] [([120;101;115;46;118;101;114;115;105;111;110], [8232;60;34;93;128512])];SEnd [108;111;103];SChars [10;9];SEnd [115;116;114;105;110;103];SChars [10;9];SStart [115;116;114;105;110;103] [([118;97;108;117;101], [128512;32])];SChars [10;9;9;34;98;10;9;9];SStart [108;111;103] [([107;101;121], [38;8232;98]);([95;97], [93;60;233;32;32;62]);([120;101;115;46;118;101;114;115;105;111;110], [93;93;32;93])];SEnd [108;111;103];SChars [10;9];SEnd [115;116;114;105;110;103];SChars [10;9];SStart [120;46;121] [([120;101;115;46;118;101;114;115;105;111;110], [97;32;32;97;34]);([118;97;108;117;101], [60])];SEnd [120;46;121];SChars [10];SEnd [65]]));
  ([60;120;46;121;62;8232;9;39;34;8232;60;108;111;103;32;118;97;108;117;101;61;34;38;113;117;111;116;59;32;98;34;32;120;101;115;46;118;101;114;115;105;111;110;61;34;38;97;109;112;59;38;108;116;59;97;32;34;32;95;97;61;34;38;103;116;59;38;103;116;59;98;38;113;117;111;116;59;97;34;62;60;120;46;121;32;47;62;60;115;116;114;105;110;103;32;118;97;108;117;101;61;34;233;38;113;117;111;116;59;97;38;97;109;112;59;8232;34;32;95;97;61;34;128512;38;35;49;48;59;38;35;49;51;59;38;103;116;59;38;35;48;57;59;233;34;32;107;101;121;61;34;38;35;48;57;59;34;62;13;38;97;109;112;59;128512;60;47;115;116;114;105;110;103;62;60;47;108;111;103;62;60;47;120;46;121;62], (Some [SStart [120;46;121] [];SChars [8232;9;39;34;8232];SStart [108;111;103] [([118;97;108;117;101], [34;32;98]);([120;101;115;46;118;101;114;115;105;111;110], [38;60;97;32]);([95;97], [62;62;98;34;97])];SStart [120;46;121] [];SEnd [120;46;121];SStart [115;116;114;105;110;103] [([118;97;108;117;101], [233;34;97;38;8232]);([95;97], [128512;10;13;62;9;233]);([107;101;121], [9])];SChars [10;38;128512];SEnd [115;116;114;105;110;103];SEnd [108;111;103];SEnd [120;46;121]]));
  ([60;63;120;109;108;32;118;101;114;115;105;111;110;61;34;49;46;48;34;32;63;62;10;60;33;45;45;111;110;101;45;45;62;10;60;33;45;45;116;119;111;32;45;32;116;104;114;101;101;45;45;62;10;60;120;46;121;32;107;101;121;61;34;39;34;32;105;100;61;34;8232;128512;34;62;10;9;97;10;9;60;115;116;114;105;110;103;32;107;101;121;61;34;8232;93;38;103;116;59;34;32;120;101;115;46;118;101;114;115;105;111;110;61;34;38;113;117;111;116;59;10;8232;34;62;10;9;9;60;108;111;103;47;62;10;9;9;60;65;32;105;100;61;34;10;39;98;38;97;109;112;59;93;34;32;120;101;115;46;118;101;114;115;105;111;110;61;34;98;38;113;117;111;116;59;38;97;109;112;59;34;32;95;97;61;34;38;108;116;59;32;233;34], None);
  ([60;115;116;114;105;110;103;32;107;101;121;61;34;38;103;116;59;38;35;49;51;59;34;32;120;101;115;46;118;101;114;115;105;111;110;61;34;34;32;95;97;61;34;39;38;97;109;112;59;38;103;116;59;38;35;49;48;59;32;34;62;60;120;46;121;32;120;101;115;46;118;101;114;115;105;111;110;61;34;128512;97;34;32;105;100;61;34;34;32;95;97;61;34;34;62;60;115;116;114;105;110;103;32;107;101;121;61;34;34;32;105;100;61;34;38;35;48;57;59;38;97;109;112;59;38;35;49;48;59;34;32;95;97;61;34;39;38;113;117;111;116;59;233;38;97;109;112;59;38;108;116;59;38;35;49;48;59;34;32;47;62;60;108;111;103;32;118;97;108;117;101;61;34;98;34;32;47;62;60;47;120;46;121;62;60;47;115;116;114;105;110;103;62], (Some [SStart [115;116;114;105;110;103] [([107;101;121], [62;13]);([120;101;115;46;118;101;114;115;105;111;110], []);([95;97], [39;38;62;10;32])];SStart [120;46;121] [([120;101;115;46;118;101;114;115;105;111;110], [128512;97]);([105;100], []);([95;97], [])];SStart [115;116;114;105;110;103] [([107;101;121], []);([105;100], [9;38;10]);([95;97], [39;34;233;38;60;10])];SEnd [115;116;114;105;110;103];SStart [108;111;103] [([118;97;108;117;101], [98])];SEnd [108;111;103];SEnd [120;46;121];SEnd [115;116;114;105;110;103]]));
  ([60;108;111;103;32;95;97;61;34;38;35;48;57;59;93;34;32;105;100;61;34;8232;98;38;97;109;112;59;38;103;116;59;38;113;117;111;116;59;34;32;120;101;115;46;118;101;114;115;105;111;110;61;34;98;38;35;49;51;59;34;62;233;8232;60;47;108;111;103;62], (Some [SStart [108;111;103] [([95;97], [9;93]);([105;100], [8232;98;38;62;34]);([120;101;115;46;118;101;114;115;105;111;110], [98;13])];SChars [233;8232];SEnd [108;111;103]]));
  ([60;63;120;109;108;32;118;101;114;115;105;111;110;61;34;49;46;48;34;32;63;62;10;60;33;45;45;111;110;101;45;45;62;10;60;33;45;45;116;119;111;32;45;32;116;104;114;101;101;45;45;62;10;60;120;46;121;62;10;9;60;115;116;114;105;110;103;32;118;97;108;117;101;61;34;38;97;109;112;59;34;47;62;10;9;60;65;62;10;9;9;60;65;32;107;101;121;61;34;38;108;116;59;13;34;32;105;100;61;34;38;113;117;111;116;59;98;128512;98;233;34;47;62;10;9;9;60;115;116;114;105;110;103;47;62;10;9;9;60;115;116;114;105;110;103;32;107;101;121;61;34;38;97;109;112;59;97;97;39;34;32;105;100;61;34;38;108;116;59;34;32;95;97;61;34;32;38;108;116;59;38;113;117;111;116;59;34;47;62;10;9;60;47;65;62;10;9;60;115;116;114;105;110;103;32;118;97;108;117;101;61;34;98;97;34;32;120;101;115;46;118;101;114;115;105;111;110;61;34;93;8232;38;113;117;111;116;59;38;97;109;112;59;39;38;97;109;112;59;34;32;105;100;61;34;32;34;62;10;9;9;97;98;10;10;9;9;60;120;46;121;32;120;101;115;46;118;101;114;115;105;111;110;61;34;97;32;9;39;8232;34;32;118;97;108;117;101;61;34;10;38;108;116;59;38;113;117;111;116;59;34;47;62;10;9;9;60;108;111;103;32;120;101;115;46;118;101;114;115;105;111;110;61;34;97;93;34;32;95;97;61;34;8232;32;39;38;103;116;59;38;97;109;112;59;233;34;32;105;100;61;34;13;32;39;34;62;38;113;117;111;116;59;10;60;47;108;111;103;62;10;9;9;60;115;116;114;105;110;103;32;105;100;61;34;39;38;113;117;111;116;59;32;10;10;97;34;32;95;97], None);
  ([60;63;120;109;108;32;118;101;114;115;105;111;110;61;34;49;46;48;34;32;63;62;10;60;33;45;45;111;110;101;45;45;62;10;60;33;45;45;116;119;111;32;45;32;116;104;114;101;101;45;45;62;10;60;120;46;121;32;107;101;121;61;34;233;34;32;95;97;61;34;8232;38;108;116;59;10;38;97;109;112;59;9;10;34;32;105;100;61;34;98;13;98;8232;9;34;62;10;9;60;120;46;121;32;118;97;108;117;101;61;34;128512;97;97;34;32;105;100;61;34;233;38;113;117;111;116;59;93;34;32;107;101;121;61;34;93;98;38;113;117;111;116;59;10;9;34;62;10;8232;38;97;109;112;59;128512;60;47;120;46;121;62;10;9;60;120;46;121;32;107;101;121;61;34;32;38;103;116;59;34;32;120;101;115;46;118;101;114;115;105;111;110;61;34;38;97;109;112;59;10;128512;9;32;34;32;95;97;61;34;38;103;116;59;32;38;97;109;112;59;128512;38;103;116;59;34;62;10;9;9;60;115;116;114;105;110;103;32;95;97;61;34;9;10;38;97;109;112;59;128512;8232;34;32;107;101;121;61;34;128512;38;113;117;111;116;59;9;34;62;38;103;116;59;128512;97;8232;38;108;116;59;60;47;115;116;114;105;110;103;62;10;9;9;60;65;32;120;101;115;46;118;101;114;115;105;111;110;61;34;34;32;107;101;121;61;34;34;47;62;10;9;60;47;120;46;121;62;10;60;47;120;46;121;62;10], (Some [SStart [120;46;121] [([107;101;121], [233]);([95;97], [8232;60;32;38;32;32]);([105;100], [98;32;98;8232;32])];SChars [10;9];SStart [120;46;121] [([118;97;108;117;101], [128512;97;97]);([105;100], [233;34;93]);([107;101;121], [93;98;34;32;32])];SChars [10;8232;38;128512];SEnd [120;46;121];SChars [10;9];SStart [120;46;121] [([107;101;121], [32;62]);([120;101;115;46;118;101;114;115;105;111;110], [38;32;128512;32;32]);([95;97], [62;32;38;128512;62])];SChars [10;9;9];SStart [115;116;114;105;110;103] [([95;97], [32;32;38;128512;8232]);([107;101;121], [128512;34;32])];SChars [62;128512;97;8232;60];SEnd [115;116;114;105;110;103];SChars [10;9;9];SStart [65] [([120;101;115;46;118;101;114;115;105;111;110], []);([107;101;121], [])];SEnd [65];SChars [10;9];SEnd [120;46;121];SChars [10];SEnd [120;46;121]]));
  ([60;108;111;103;32;120;101;115;46;118;101;114;115;105;111;110;61;34;128512;34;62;60;108;111;103;32;107;101;121;61;34;38;103;116;59;38;35;49;51;59;97;34;32;105;100;61;34;34;32;120;101;115;46;118;101;114;115;105;111;110;61;34;38;35;49;51;59;233;34;62;60;115;116;114;105;110;103;32;95;97;61;34;97;38;35;49;48;59;38;35;48;57;59;38;113;117;111;116;59;38;108;116;59;38;35;48;57;59;34;32;118;97;108;117;101;61;34;98;34;32;105;100;61;34;38;35;49;51;59;32;38;35;48;57;59;34;32;47;62;60;47;108;111;103;62;60;47;108;111;103;62], (Some [SStart [108;111;103] [([120;101;115;46;118;101;114;115;105;111;110], [128512])];SStart [108;111;103] [([107;101;121], [62;13;97]);([105;100], []);([120;101;115;46;118;101;114;115;105;111;110], [13;233])];SStart [115;116;114;105;110;103] [([95;97], [97;10;9;34;60;9]);([118;97;108;117;101], [98]);([105;100], [13;32;9])];SEnd [115;116;114;105;110;103];SEnd [108;111;103];SEnd [108;111;103]]));
  ([60;63;120;109;108;32;118;101;114;115;105;111;110;61;34;49;46;48;34;32;63;62;10;60;33;45;45;111;110;101;45;45;62;10;60;33;45;45;116;119;111;32;45;32;116;104;114;101;101;45;45;62;10;60;120;46;121;32;118;97;108;117;101;34;38;103;116;59;10;32;39;39;34;32;105;100;61;34;13;34;62;10;9;60;120;46;121;62;10;9;9;60;65;32;105;100;61;34;38;108;116;59;34;47;62;10;9;9;60;115;116;114;105;110;103;47;62;10;9;60;47;120;46;121;62;10;60;47;120;46;121;62;10], None);
  ([60;63;120;109;108;32;118;101;114;115;105;111;110;61;34;49;46;48;34;32;63;62;10;60;33;45;45;111;110;101;45;45;62;10;60;33;45;45;116;119;111;32;45;32;116;104;114;101;101;45;45;62;10;60;108;111;103;62;10;9;98;10;9;60;108;111;103;32;120;101;115;46;118;101;114;115;105;111;110;61;34;38;108;116;59;98;233;39;38;108;116;59;13;34], None);
  ([60;63;120;109;108;32;118;101;114;115;105;111;110;61;34;49;46;48;34;32;63;62;10;60;33;45;45;111;110;101;45;45;62;10;60;33;45;45;116;119;111;32;45;32;116;104;114;101;101;45;45;62;10;60;120;46;121;32;105;100;61;34;32;8232;32;8232;32;38;103;116;59;34;62;10;9;60;108;111;103;32;105;100;61;34;97;9;38;97;109;112;59;38;103;116;59;97;34;32;120;101;115;46;118;101;114;115;105;111;110;61;34;128512;98;38;103;116;59;13;34;47;62;10;9;60;120;46;121;32;120;101;115;46;118;101;114;115;105;111;110;61;34;38;97;109;112;59;233;98;38;103;116;59;97;38;103;116;59;34;32;118;97;108;117;101;61;34;34;47;62;10;60;47;120;46;121;62;10], (Some [SStart [120;46;121] [([105;100], [32;8232;32;8232;32;62])];SChars [10;9];SStart [108;111;103] [([105;100], [97;32;38;62;97]);([120;101;115;46;118;101;114;115;105;111;110], [128512;98;62;32])];SEnd [108;111;103];SChars [10;9];SStart [120;46;121] [([120;101;115;46;118;101;114;115;105;111;110], [38;233;98;62;97;62]);([118;97;108;117;101], [])];SEnd [120;46;121];SChars [10];SEnd [120;46;121]]));
  ([60;63;120;109;108;32;118;101;114;115;105;111;110;61;34;49;46;48;34;32;63;62;10;60;33;45;45;111;110;101;45;45;62;10;60;33;45;45;116;119;111;32;45;32;116;104;114;101;101;45;45;62;10;60;115;116;114;105;110;103;32;118;97;108;117;101;61;34;38;97;109;112;59;38;97;109;112;59;93;34;62;10;9;60;120;46;121;32;120;101;115;46;118;101;114;115;105;111;110;61;34;38;108;116;59;38;113;117;111;116;59;233;38;97;109;112;59;233;39;34;32;107;101;121;61;34;38;108;116;59;128512;38;97;109;112;59;10;38;113;117;111;116;59;34;62;10;9;9;9;38;108;116;59;38;97;109;112;59;9;10;9;9;60;120;46;121;32;105;100;61;34;93;38;108;116;59;38;103;116;59;128512;34;62;97;10;9;60;47;120;46;121;62;10;9;60;47;120;46;121;62;10;9;60;108;111;103;62;10;9;9;9;128512;9;32;10;10;9;9;60;65;32;118;97;108;117;101;61;34;32;97;38;108;116;59;233;38;113;117;111;116;59;128512;34;32;107;101;121;61;34;93;8232;39;39;34;32;120;101;115;46;118;101;114;115;105;111;110;61;34;97;32;39;38;103;116;59;38;97;109;112;59;34;47;62;10;9;60;47;108;111;103;62;10;60;47;115;116;114;105;110;103;62;10], (Some [SStart [115;116;114;105;110;103] [([118;97;108;117;101], [38;38;93])];SChars [10;9];SStart [120;46;121] [([120;101;115;46;118;101;114;115;105;111;110], [60;34;233;38;233;39]);([107;101;121], [60;128512;38;32;34])];SChars [10;9;9;9;60;38;9;10;9;9];SStart [120;46;121] [([105;100], [93;60;62;128512])];SChars [97;10;9];SEnd [120;46;121];SChars [10;9];SEnd [120;46;121];SChars [10;9];SStart [108;111;103] [];SChars [10;9;9;9;128512;9;32;10;10;9;9];SStart [65] [([118;97;108;117;101], [32;97;60;233;34;128512]);([107;101;121], [93;8232;39;39]);([120;101;115;46;118;101;114;115;105;111;110], [97;32;39;62;38])];SEnd [65];SChars [10;9];SEnd [108;111;103];SChars [10];SEnd [115;116;114;105;110;103]]));
  ([60;63;120;109;108;32;118;101;114;115;105;111;110;61;34;49;46;48;34;32;63;62;10;60;33;45;45;111;110;101;45;45;62;10;60;33;45;45;116;119;111;32;45;32;116;104;114;101;101;45;45;62;10;60;65;32;105;100;61;34;97;34;32;107;101;121;61;34;98;128512;38;108;116;59;32;13;98;34;62;10;9;60;65;32;120;101;115;46;118;101;114;115;105;111;110;61;34;93;93;32;32;39;34;32;118;97;108;117;101;61;34;38;97;109;112;59;34;32;105;100;61;34;233;10;93;93;34;62;10;9;9;60;120;46;121;32;118;97;108;117;101;61;34;93;38;97;109;112;59;32;98;34;32;105;100;61;34;38;97;109;112;59;93;34;32;120;101;115;46;118;101;114;115;105;111;110;61;34;34;47;62;10;9;9;60;120;46;121;32;105;100;61;34;38;103;116;59;38;97;109;112;59;39;38;97;109;112;59;128512;9;34;32;95;97;61;34;38;103;116;59;233;34;47;62;10;9;60;47;65;62;10;9;60;65;32;107;101;121;61;34;13;38;108;116;59;32;32;13;34;62;10;9;9;60;65;32;120;101;115;46;118;101;114;115;105;111;110;61;34;38;97;109;112;59;93;38;97;109;112;59;38;103;116;59;34;32;105;100;61;34;93;128512;34;62;10;38;108;116;59;38;108;116;59;8232;8232;60;60;47;65;62;10;9;60;47;65;62;10;60;47;65;62;10], None);
  ([60;63;120;109;108;32;118;101;114;115;105;111;110;61;34;49;46;48;34;32;63;62;10;60;33;45;45;111;110;101;45;45;62;10;60;33;45;45;116;119;111;32;45;32;116;104;114;101;101;45;45;62;10;60;108;111;103;32;105;100;61;34;13;39;34;32;118;97;108;117;101;61;34;13;9;10;34;32;120;101;115;46;118;101;114;115;105;111;110;61;34;34;62;10;9;60;115;116;114;105;110;103;32;120;101;115;46;118;101;114;115;105;111;110;61;34;34;32;107;101;121;61;34;38;113;117;111;116;59;38;108;116;59;38;103;116;59;10;32;34;62;32;38;108;116;59;8232;60;47;115;116;114;105;110;103;62;10;9;60;65;32;120;101;115;46;118;101;114;115;105;111;110;61;34;93;34;32;105;100;61;34;98;93;34;32;118;97;108;117;101;61;34;233;8232;34;62;10;9;9;60;120;46;121;32;95;97;61;34;233;93;38;108;116;59;98;10;34;47;62;10;9;9;60;108;111;103;32;118;97;108;117;101;61;34;9;38;97;109;112;59;8232;38;97;109;112;59;34;32;105;100;61;34;38;113;117;111;116;59;9;233;34;47;62;10;9;9;60;65;32;120;101;115;46;118;101;114;115;105;111;110;61;34;233;128512;10;34;47;62;10;9;60;47;65;62;10;60;47;108;111;103;62;10], (Some [SStart [108;111;103] [([105;100], [32;39]);([118;97;108;117;101], [32;32;32]);([120;101;115;46;118;101;114;115;105;111;110], [])];SChars [10;9];SStart [115;116;114;105;110;103] [([120;101;115;46;118;101;114;115;105;111;110], []);([107;101;121], [34;60;62;32;32])];SChars [32;60;8232];SEnd [115;116;114;105;110;103];SChars [10;9];SStart [65] [([120;101;115;46;118;101;114;115;105;111;110], [93]);([105;100], [98;93]);([118;97;108;117;101], [233;8232])];SChars [10;9;9];SStart [120;46;121] [([95;97], [233;93;60;98;32])];SEnd [120;46;121];SChars [10;9;9];SStart [108;111;103] [([118;97;108;117;101], [32;38;8232;38]);([105;100], [34;32;233])];SEnd [108;111;103];SChars [10;9;9];SStart [65] [([120;101;115;46;118;101;114;115;105;111;110], [233;128512;32])];SEnd [65];SChars [10;9];SEnd [65];SChars [10];SEnd [108;111;103]]));
  ([60;63;120;109;108;32;118;101;114;115;105;111;110;61;34;49;46;48;34;32;63;62;10;60;33;45;45;111;110;101;45;45;62;10;60;33;45;45;116;119;111;32;45;32;116;104;114;101;101;45;45;62;10;60;115;116;114;105;110;103;32;118;97;108;117;101;61;34;34;32;105;100;61;34;10;34;32;107;101;121;61;34;8232;9;38;103;116;59;38;103;116;59;34;62;10;9;60;65;32;105;100;61;34;38;113;117;111;116;59;8232;98;38;108;116;59;34;62;38;108;116;59;9;233;60;47;65;62;10;9;60;65;62;10;9;9;60;115;116;114;105;110;103;32;120;101;115;46;118;101;114;115;105;111;110;61;34;38;103;116;59;10;34;62;8232;128512;10;60;47;115;116;114;105;110;103;62;10;9;60;47;65;62;10;60;47;115;116;114;105;110;103;62;10], (Some [SStart [115;116;114;105;110;103] [([118;97;108;117;101], []);([105;100], [32]);([107;101;121], [8232;32;62;62])];SChars [10;9];SStart [65] [([105;100], [34;8232;98;60])];SChars [60;9;233];SEnd [65];SChars [10;9];SStart [65] [];SChars [10;9;9];SStart [115;116;114;105;110;103] [([120;101;115;46;118;101;114;115;105;111;110], [62;32])];SChars [8232;128512;10];SEnd [115;116;114;105;110;103];SChars [10;9];SEnd [65];SChars [10];SEnd [115;116;114;105;110;103]]));
  ([60;63;120;109;108;32;118;101;114;115;105;111;110;61;34;49;46;48;34;32;63;62;10;60;33;45;45;111;110;101;45;45;62;10;60;33;45;45;116;119;111;32;45;32;116;104;114;101;101;45;45;62;10;60;120;46;121;32;120;101;115;46;118;101;114;115;105;111;110;61;34;10;10;38;103;116;59;13;38;113;117;111;116;59;34;62;10;9;60;65;32;107;101;121;61;34;38;113;117;111;116;59;8232;8232;34;62;10;9;9;60;60;108;111;103;32;95;97;61;34;38;113;117;111;116;59;34;47;62;10;9;60;47;65;62;10;9;60;115;116;114;105;110;103;32;107;101;121;61;34;233;34;32;118;97;108;117;101;61;34;93;38;103;116;59;34;32;95;97;61;34;38;97;109;112;59;39;13;8232;34;62;10;9;9;10;128512;38;103;116;59;10;9;9;60;65;47;62;10;9;60;47;115;116;114;105;110;103;62;10;9;60;115;116;114;105;110;103;32;105;100;61;34;128512;34;32;120;101;115;46;118;101;114;115;105;111;110;61;34;32;38;108;116;59;233;128512;34;32;118;97;108;117;101;61;34;38;113;117;111;116;59;13;39;34;47;62;10;60;47;120;46;121;62;10], None);
  ([60;63;120;109;108;32;118;101;114;115;105;111;110;61;34;49;46;48;34;32;63;62;10;60;33;45;45;111;110;101;45;45;62;10;60;33;45;45;116;119;111;32;45;32;116;104;114;101;101;45;45;62;10;60;65;32;95;97;61;34], None);
  ([60;63;120;109;108;32;118;101;114;115;105;111;110;61;34;49;46;48;34;32;63;62;10;60;33;45;45;111;110;101;45;45;62;10;60;33;45;45;116;119;111;32;45;32;116;104;114;101;101;45;45;62;10;60;115;116;114;105;110;103;32;120;101;115;46;118;101;114;115;105;111;110;61;128512;34;32;107;101;121;61;34;13;34;32;105;100;61;34;34;62;10;9;60;108;111;103;47;62;10;60;47;115;116;114;105;110;103;62;10], None);
  ([60;63;120;109;108;32;118;101;114;115;105;111;110;61;34;49;46;48;34;32;63;62;10;60;33;45;45;111;110;101;45;45;62;10;60;33;45;45;116;119;111;32;45;32;116;104;114;101;101;45;45;62;10;60;65;62;10;9;233;93;10;9;60;65;32;95;97;61;34;8232;93;93;93;34;32;107;101;121;61;34;9;8232;39;13;34;62;10;9;9;60;115;116;114;105;110;103;32;105;100;61;34;98;98;39;128512;10;34;47;62;10;9;60;47;65;62;10;9;60;65;32;120;101;115;46;118;101;114;115;105;111;110;61;34;97;34;47;62;10;60;47;65;62;10], (Some [SStart [65] [];SChars [10;9;233;93;10;9];SStart [65] [([95;97], [8232;93;93;93]);([107;101;121], [32;8232;39;32])];SChars [10;9;9];SStart [115;116;114;105;110;103] [([105;100], [98;98;39;128512;32])];SEnd [115;116;114;105;110;103];SChars [10;9];SEnd [65];SChars [10;9];SStart [65] [([120;101;115;46;118;101;114;115;105;111;110], [97])];SEnd [65];SChars [10];SEnd [65]]));
  ([60;63;120;109;108;32;118;101;114;115;105;111;110;61;34;49;46;48;34;32;63;62;10;60;33;45;45;111;110;101;45;45;62;10;60;33;45;45;116;119;111;32;45;32;116;104;114;101;101;45;45;62;10;60;120;46;121;32;95;97;61;34;10;13;34;32;118;97;108;117;101;61;34;10;98;32;9;13;34;32;120;101;115;46;118;101;114;115;105;111;110;61;34;8232;38;97;109;112;59;32;34;62;10;9;60;115;116;114;105;110;103;32;105;100;61;34;9;39;10;38;113;117;111;116;59;38;103;116;59;38;97;109;112;59;34;62;10;9;9;60;115;116;114;105;110;103;32;118;97;108;117;101;61;34;38;113;117;111;116;59;233;97;98;233;34;32;107;101;121;61;34;39;34;32;120;101;115;46;118;101;114;115;105;111;110;61;34;233;38;108;116;59;34;62;10;60;47;115;116;114;105;110;103;62;10;9;60;47;115;116;114;105;110;103;62;10;9;60;120;46;121;32;105;100;61;34;38;103;116;59;233;98;34;32;120;101;115;46;118;101;114;115;105;111;110;61;34;34;62;10;9;9;60;108;111;103;32;107;101;121;61;34;38;97;109;112;59;233;34;47;62;62;10;9;9;60;120;46;121;32;120;101;115;46;118;101;114;115;105;111;110;61;34;128512;34;32;107;101;121;61;34;128512;38;97;109;112;59;13;38;113;117;111;116;59;98;97;34;47;62;10;9;60;47;120;46;121;62;10;60;47;120;46;121;62;10], (Some [SStart [120;46;121] [([95;97], [32;32]);([118;97;108;117;101], [32;98;32;32;32]);([120;101;115;46;118;101;114;115;105;111;110], [8232;38;32])];SChars [10;9];SStart [115;116;114;105;110;103] [([105;100], [32;39;32;34;62;38])];SChars [10;9;9];SStart [115;116;114;105;110;103] [([118;97;108;117;101], [34;233;97;98;233]);([107;101;121], [39]);([120;101;115;46;118;101;114;115;105;111;110], [233;60])];SChars [10];SEnd [115;116;114;105;110;103];SChars [10;9];SEnd [115;116;114;105;110;103];SChars [10;9];SStart [120;46;121] [([105;100], [62;233;98]);([120;101;115;46;118;101;114;115;105;111;110], [])];SChars [10;9;9];SStart [108;111;103] [([107;101;121], [38;233])];SEnd [108;111;103];SChars [62;10;9;9];SStart [120;46;121] [([120;101;115;46;118;101;114;115;105;111;110], [128512]);([107;101;121], [128512;38;32;34;98;97])];SEnd [120;46;121];SChars [10;9];SEnd [120;46;121];SChars [10];SEnd [120;46;121]]));
  ([60;115;116;114;105;110;103;32;95;97;61;34;98;38;35;49;51;59;38;35;48;57;59;38;35;49;48;59;38;113;117;111;116;59;34;32;47;62], (Some [SStart [115;116;114;105;110;103] [([95;97], [98;13;9;10;34])];SEnd [115;116;114;105;110;103]]));
  ([60;63;120;109;108;32;118;101;114;115;105;111;110;61;34;49;46;48;34;32;63;62;10;60;33;45;45;111;110;101;45;45;62;10;60;33;45;45;116;119;111;32;45;32;116;104;114;101;101;45;45;62;10;60;120;46;121;32;95;97;61;34;34;32;107;101;121;61;34;38;97;109;112;59;38;108;116;59;38;108;116;59;38;97;109;112;59;93;34;32;118;97;108;117;101;61;34;38;103;116;59;97;128512;8232;13;38;97;109;112;59;34;47;62;10], (Some [SStart [120;46;121] [([95;97], []);([107;101;121], [38;60;60;38;93]);([118;97;108;117;101], [62;97;128512;8232;32;38])];SEnd [120;46;121]]));
  ([60;108;111;103;32;118;97;108;117;101;61;34;34;62;9;38;97;109;112;59;10;34;39;60;108;111;103;62;60;115;116;114;105;110;103;62;98;38;103;116;59;233;38;108;116;59;9;60;47;115;116;114;105;110;103;62;60;120;46;121;32;105;100;61;34;97;93;93;32;93;34;32;47;62;60;65;32;107;101;121;61;34;38;35;49;48;59;38;103;116;59;38;35;49;48;59;233;34;32;47;62;60;47;108;111;103;62;60;115;116;114;105;110;103;62;98;128512;38;108;116;59;60;120;46;121;62;38;97;109;112;59;38;97;109;112;59;38;103;116;59;60;47;120;46;121;62;60;47;115;116;114;105;110;103;62;60;108;111;103;62;128512;10;32;39;38;108;116;59;60;47;108;111;103;62;60;47;108;111;103;62], (Some [SStart [108;111;103] [([118;97;108;117;101], [])];SChars [9;38;10;34;39];SStart [108;111;103] [];SStart [115;116;114;105;110;103] [];SChars [98;62;233;60;9];SEnd [115;116;114;105;110;103];SStart [120;46;121] [([105;100], [97;93;93;32;93])];SEnd [120;46;121];SStart [65] [([107;101;121], [10;62;10;233])];SEnd [65];SEnd [108;111;103];SStart [115;116;114;105;110;103] [];SChars [98;128512;60];SStart [120;46;121] [];SChars [38;38;62];SEnd [120;46;121];SEnd [115;116;114;105;110;103];SStart [108;111;103] [];SChars [128512;10;32;39;60];SEnd [108;111;103];SEnd [108;111;103]]));
  ([60;63;120;109;108;32;118;101;114;115;105;111;110;61;34;49;46;48;34;32;63;62;10;60;33;45;45;111;110;101;45;45;62;10;60;33;45;45;116;119;111;32;45;32;116;104;114;101;101;45;45;62;10;60;65;32;120;101;115;46;118;101;114;115;105;111;110;61;34;38;97;109;112;59;10;34;32;95;97;61;34;34;47;62;10], (Some [SStart [65] [([120;101;115;46;118;101;114;115;105;111;110], [38;32]);([95;97], [])];SEnd [65]]));
  ([60;63;120;109;108;32;118;101;114;115;105;111;110;61;34;49;46;48;34;32;63;62;10;60;33;45;45;111;110;101;45;45;62;10;60;33;45;45;116;119;111;32;45;32;116;104;114;101;101;45;45;62;10;60;115;116;114;105;110;103;32;118;97;108;117;101;61;34;38;97;109;112;59;38;113;117;111;116;59;93;128512;34;32;95;97;61;34;38;113;117;111;116;59;13;34;32;107;101;121;61;34;38;103;116;59;38;113;117;111;116;59;38;103;116;59;128512;34], None);
  ([60;108;111;103;32;95;97;61;34;38;35;49;51;59;38;35;49;51;59;34;62;60;108;111;103;32;120;101;115;46;118;101;114;115;105;111;110;61;34;8232;93;8232;97;97;98;34;32;107;101;121;61;34;39;38;108;116;59;38;113;117;111;116;59;38;97;109;112;59;34;32;105;100;61;34;38;108;116;59;38;97;109;112;59;38;35;48;57;59;38;113;117;111;116;59;233;34;62;39;60;120;46;121;32;105;100;61;34;34;32;107;101;121;61;34;34;32;118;97;108;117;101;61;34;38;35;48;57;59;38;113;117;111;116;59;98;93;233;93;34;32;47;62;60;47;108;111;103;62;60;120;46;121;62;233;38;97;109;112;59;233;13;60;65;62;98;233;60;47;65;62;60;115;116;114;105;110;103;32;120;101;115;46;118;101;114;115;105;111;110;61;34;38;113;117;111;116;59;34;62;10;32;233;38;103;116;59;93;60;47;115;116;114;105;110;103;62;60;47;120;46;121;62;60;115;116;114;105;110;103;62;60;65;32;95;97;61;34;38;113;117;111;116;59;34;32;120;101;115;46;118;101;114;115;105;111;110;61;34;39;34;62;39;128512;93;93;93;60;47;65;62;60;47;115;116;114;105;110;103;62;60;47;108;111;103;62], (Some [SStart [108;111;103] [([95;97], [13;13])];SStart [108;111;103] [([120;101;115;46;118;101;114;115;105;111;110], [8232;93;8232;97;97;98]);([107;101;121], [39;60;34;38]);([105;100], [60;38;9;34;233])];SChars [39];SStart [120;46;121] [([105;100], []);([107;101;121], []);([118;97;108;117;101], [9;34;98;93;233;93])];SEnd [120;46;121];SEnd [108;111;103];SStart [120;46;121] [];SChars [233;38;233;10];SStart [65] [];SChars [98;233];SEnd [65];SStart [115;116;114;105;110;103] [([120;101;115;46;118;101;114;115;105;111;110], [34])];SChars [10;32;233;62;93];SEnd [115;116;114;105;110;103];SEnd [120;46;121];SStart [115;116;114;105;110;103] [];SStart [65] [([95;97], [34]);([120;101;115;46;118;101;114;115;105;111;110], [39])];SChars [39;128512;93;93;93];SEnd [65];SEnd [115;116;114;105;110;103];SEnd [108;111;103]]));
  ([60;63;120;109;108;32;118;101;114;115;105;111;110;61;34;49;46;48;34;32;63;62;10;60;33;45;45;111;110;101;45;45;62;10;60;33;45;45;116;119;111;32;45;32;116;104;114;101;101;45;45;62;10;60;115;116;114;105;110;103;32;105;100;61;34;38;108;116;59;34;62;10;9;38;108;116;59;38;97;109;112;59;60;47;115;116;114;105;110;103;62;10], (Some [SStart [115;116;114;105;110;103] [([105;100], [60])];SChars [10;9;60;38];SEnd [115;116;114;105;110;103]]));
  ([60;63;120;109;108;32;118;101;114;115;105;111;110;61;34;49;46;48;34;32;63;62;10;60;33;45;45;111;110;101;45;45;62;10;60;33;45;45;116;119;111;32;45;32;116;104;114;101;101;45;45;62;10;60;120;46;121;62;10;9;60;65;32;107;101;121;61;34;34;47;62;10;60;47;120;46;121;62;10], (Some [SStart [120;46;121] [];SChars [10;9];SStart [65] [([107;101;121], [])];SEnd [65];SChars [10];SEnd [120;46;121]]));
  ([60;63;120;109;108;32;118;101;114;115;105;111;110;61;34;49;46;48;34;32;63;62;10;60;33;45;45;111;110;101;45;45;62;10;60;33;45;45;116;119;111;32;45;32;116;104;114;101;101;45;45;62;10;60;115;116;114;105;110;103;32;95;97;61;34;9;9;38;108;116;59;38;113;117;111;116;59;39;34;32;118;97;108;117;101;61;34;38;113;117;111;116;59;9;233;34;47;62;10], (Some [SStart [115;116;114;105;110;103] [([95;97], [32;32;60;34;39]);([118;97;108;117;101], [34;32;233])];SEnd [115;116;114;105;110;103]]));
  ([60;63;120;109;108;32;118;101;114;115;105;111;110;61;34;49;46;48;34;32;63;62;10;60;33;45;45;111;110;101;45;45;62;10;60;33;45;45;116;119;111;32;45;32;116;104;114;101;101;45;45;62;10;60;120;46;121;32;120;101;115;46;118;101;114;115;105;111;110;61;34;13;38;97;109;112;59;32;38;97;109;112;59;34;32;105;100;61;34;38;103;116;59;34;32;118;97;108;117;101;61;34;98;97;8232;34;62;10;9;10;32;10;9;60;120;46;121;62;38;108;116;59;60;47;120;46;121;62;10;9;60;120;46;121;32;95;97;61;34;38;108;116;59;233;34;32;118;97;108;117;101;61;34;10;32;13;93;38;108;116;59;233;34;62;10;9;9;38;108;116;59;10;9;9;60;120;46;121;32;105;100;61;34;38;108;116;59;8232;38;103;116;59;97;34;32;95;97;61;34;38;103;116;59;38;108;116;59;233;97;34;32;118;97;108;117;101;61;34;8232;38;113;117;111;116;59;233;8232;13;38;97;109;112;59;34;47;62;10;9;60;60;47;120;46;121;62;10;60;47;120;46;121;62;10], None);
  ([60;120;46;121;32;120;101;115;46;118;101;114;115;105;111;110;61;34;97;32;34;32;107;101;121;61;34;32;38;97;109;112;59;34;32;95;97;61;34;128512;38;35;49;51;59;39;98;97;34;62;60;120;46;121;32;95;97;61;34;8232;34;32;118;97;108;117;101;61;34;38;103;116;59;32;38;35;48;57;59;34;62;38;103;116;59;93;8232;60;47;120;46;121;62;60;47;120;46;121;62], (Some [SStart [120;46;121] [([120;101;115;46;118;101;114;115;105;111;110], [97;32]);([107;101;121], [32;38]);([95;97], [128512;13;39;98;97])];SStart [120;46;121] [([95;97], [8232]);([118;97;108;117;101], [62;32;9])];SChars [62;93;8232];SEnd [120;46;121];SEnd [120;46;121]]));
  ([60;65;32;107;101;121;61;34;38;35;49;51;59;34;32;95;97;61;34;34;32;105;100;61;34;38;35;49;48;59;38;103;116;59;38;103;116;59;38;103;116;59;38;97;109;112;59;93;34;62;60;120;46;121;32;120;101;115;46;118;101;114;115;105;111;110;61;34;34;62;60;120;46;121;32;105;100;61;34;32;38;103;116;59;98;128512;93;93;34;62;10;93;60;47;120;46;121;62;60;47;120;46;121;62;60;47;65;62], (Some [SStart [65] [([107;101;121], [13]);([95;97], []);([105;100], [10;62;62;62;38;93])];SStart [120;46;121] [([120;101;115;46;118;101;114;115;105;111;110], [])];SStart [120;46;121] [([105;100], [32;62;98;128512;93;93])];SChars [10;93];SEnd [120;46;121];SEnd [120;46;121];SEnd [65]]));
  ([60;65;32;107;101;121;61;34;34;32;95;97;61;34;128512;38;108;116;59;38;35;49;51;59;8232;128512;34;32;120;101;115;46;118;101;114;115;105;111;110;61;34;38;103;116;59;233;34;62;60;65;32;47;62;60;47;65;62], (Some [SStart [65] [([107;101;121], []);([95;97], [128512;60;13;8232;128512]);([120;101;115;46;118;101;114;115;105;111;110], [62;233])];SStart [65] [];SEnd [65];SEnd [65]]))
].
Example agree_xml_read : forallb (fun '(s, r) => optsax_eqb (option_map join_text (read_xml s)) r) cases_xml_read = true.
Proof. vm_compute. reflexivity. Qed.

(** [datetime.fromtimestamp(f / 1000.0)] for a float at an offset from UTC *)
Definition cases_clock_float : list (Z * spec_float * res datetime) := [
  ((-5400)%Z, (S754_finite false 5467779706824228 (-11)%Z), (Ok (mk_dt 2054 8 8 13 35 9 972767 None)));
  ((0)%Z, (S754_finite false 5643093403293880 (-6)%Z), (Ok (mk_dt 4764 2 7 16 53 46 466873 None)));
  ((43200)%Z, (S754_finite true 5613508093459738 (-43)%Z), (Ok (mk_dt 1970 1 1 11 59 59 361818 None)));
  ((0)%Z, (S754_finite true 5689002947973862 (-15)%Z), (Ok (mk_dt 1964 7 1 13 43 28 81852 None)));
  ((0)%Z, (S754_zero false), (Ok (mk_dt 1970 1 1 0 0 0 0 None)));
  ((-19800)%Z, (S754_finite false 5583619240910463 (7)%Z), (Raise ValueError));
  ((43200)%Z, (S754_zero true), (Ok (mk_dt 1970 1 1 12 0 0 0 None)));
  ((0)%Z, (S754_infinity true), (Raise OverflowError));
  ((-5400)%Z, (S754_finite false 7751897419062722 (-7)%Z), (Ok (mk_dt 3889 2 14 12 33 6 427513 None)));
  ((0)%Z, (S754_finite false 4674875230902480 (-43)%Z), (Ok (mk_dt 1970 1 1 0 0 0 531472 None)));
  ((19800)%Z, (S754_finite true 8495671400987648 (-10)%Z), (Ok (mk_dt 1707 2 4 7 8 17 473000 None)));
  ((0)%Z, (S754_finite false 5629499534213120 (-50)%Z), (Ok (mk_dt 1970 1 1 0 0 0 5000 None)));
  ((5400)%Z, (S754_finite true 6878039523196928 (-13)%Z), (Ok (mk_dt 1943 5 25 10 2 46 16000 None)));
  ((-7875)%Z, (S754_finite false 6686337509173498 (-12)%Z), (Ok (mk_dt 2021 9 23 12 5 43 450561 None)));
  ((0)%Z, (S754_finite false 4619282578291008 (-6)%Z), (Ok (mk_dt 4257 3 5 17 31 25 796997 None)));
  ((0)%Z, (S754_finite false 5002462998303376 (-6)%Z), (Ok (mk_dt 4446 11 25 22 59 8 490250 None)));
  ((19800)%Z, (S754_finite false 6731826465805019 (-12)%Z), (Ok (mk_dt 2022 1 30 8 42 0 753178 None)));
  ((3600)%Z, (S754_finite false 7205759403792794 (-56)%Z), (Ok (mk_dt 1970 1 1 1 0 0 100 None)));
  ((-5400)%Z, (S754_finite true 5948969739402172 (-44)%Z), (Ok (mk_dt 1969 12 31 22 29 59 661840 None)));
  ((0)%Z, (S754_finite false 6658822979746939 (-5)%Z), (Ok (mk_dt 8564 1 20 10 48 37 91858 None)));
  ((0)%Z, (S754_finite false 8436996671047932 (-8)%Z), (Ok (mk_dt 3014 5 14 23 17 26 280983 None)));
  ((0)%Z, (S754_finite false 6691616177941054 (-12)%Z), (Ok (mk_dt 2021 10 8 12 15 55 942640 None)));
  ((-19800)%Z, (S754_finite true 7408665928669696 (-7)%Z), (Ok (mk_dt 135 11 7 0 27 12 267998 None)));
  ((-19800)%Z, (S754_finite true 6695063740481536 (-37)%Z), (Ok (mk_dt 1969 12 31 18 29 11 287000 None)));
  ((0)%Z, (S754_finite true 7327399349355578 (-44)%Z), (Ok (mk_dt 1969 12 31 23 59 59 583486 None)));
  ((19800)%Z, (S754_finite false 6364286371201152 (-7)%Z), (Ok (mk_dt 3545 8 6 14 51 15 9003 None)));
  ((0)%Z, (S754_infinity false), (Raise OverflowError));
  ((10197)%Z, (S754_finite true 6543631442733139 (-13)%Z), (Ok (mk_dt 1944 9 8 22 37 41 900740 None)));
  ((0)%Z, (S754_finite false 4651701343121152 (-5)%Z), (Ok (mk_dt 6576 6 14 23 56 12 536011 None)));
  ((-3600)%Z, (S754_finite false 7486936061403345 (-7)%Z), (Ok (mk_dt 3823 7 13 2 6 19 713631 None)));
  ((0)%Z, (S754_finite false 7665005154243876 (-6)%Z), (Ok (mk_dt 5765 3 23 3 32 15 60562 None)));
  ((43200)%Z, (S754_finite false 7205759403792794 (-56)%Z), (Ok (mk_dt 1970 1 1 12 0 0 100 None)));
  ((43200)%Z, (S754_finite false 6699184915148589 (-12)%Z), (Ok (mk_dt 2021 10 30 9 33 12 174948 None)));
  ((0)%Z, (S754_finite false 6562454800442624 (-8)%Z), (Ok (mk_dt 2782 4 30 15 11 4 229000 None)));
  ((0)%Z, (S754_finite true 7722910432742703 (-32)%Z), (Ok (mk_dt 1969 12 31 23 30 1 869793 None)));
  ((19800)%Z, (S754_finite false 6567736419449979 (-12)%Z), (Ok (mk_dt 2020 10 23 16 37 54 279780 None)))
].
Example agree_clock_float : forallb (fun '(o, f, d) => resdt_eqb (from_thousandths (local_of o) (fun _ => Raise TypeError) (PFloat f)) d) cases_clock_float = true.
Proof. vm_compute. reflexivity. Qed.

(** [time.mktime(d.timetuple()) * 1000] at an offset from UTC, as a float *)
Definition cases_clock_ms : list (Z * datetime * spec_float) := [
  ((0)%Z, (mk_dt 1900 1 1 10 7 17 5 (Some (mk_tz (0)%Z None))), (S754_finite true 4523934439424000 (-11)%Z));
  ((0)%Z, (mk_dt 4 1 1 20 3 5 123000 (Some (mk_tz (8460000000)%Z None))), (S754_finite true 7941237326720000 (-7)%Z));
  ((5400)%Z, (mk_dt 9999 3 1 18 24 16 123000 (Some (mk_tz (0)%Z None))), (S754_finite false 8108029544192000 (-5)%Z));
  ((-8232)%Z, (mk_dt 2024 3 1 2 26 40 5 (Some (mk_tz (-68174441120)%Z None))), (S754_finite false 7001162678272000 (-12)%Z));
  ((-43200)%Z, (mk_dt 400 12 30 5 47 45 123000 None), (S754_finite true 6337654366080000 (-7)%Z));
  ((-43200)%Z, (mk_dt 100 6 16 23 12 4 123000 (Some (mk_tz (69840000000)%Z None))), (S754_finite true 7551614729728000 (-7)%Z));
  ((-10648)%Z, (mk_dt 400 2 28 22 29 6 0 (Some (mk_tz (-2580000000)%Z None))), (S754_finite true 6341034957568000 (-7)%Z));
  ((3600)%Z, (mk_dt 100 1 12 21 7 15 0 None), (S754_finite true 7553335854720000 (-7)%Z));
  ((0)%Z, (mk_dt 4 1 1 19 39 59 0 (Some (mk_tz (85891177982)%Z None))), (S754_finite true 7941237504128000 (-7)%Z));
  ((-5400)%Z, (mk_dt 5042 12 31 18 42 17 0 (Some (mk_tz (0)%Z None))), (S754_finite false 6206366869568000 (-6)%Z));
  ((0)%Z, (mk_dt 100 1 1 12 55 45 123000 (Some (mk_tz (3720000000)%Z None))), (S754_finite true 7553460819840000 (-7)%Z));
  ((5400)%Z, (mk_dt 1 2 28 1 18 34 0 (Some (mk_tz (-54252000000)%Z None))), (S754_finite true 7952715044608000 (-7)%Z));
  ((43200)%Z, (mk_dt 2024 3 1 5 22 8 5 (Some (mk_tz (-3000000000)%Z None))), (S754_finite false 7000995135488000 (-12)%Z));
  ((0)%Z, (mk_dt 2024 3 1 15 20 21 0 (Some (mk_tz (4651000000)%Z None))), (S754_finite false 7001319100416000 (-12)%Z));
  ((-5400)%Z, (mk_dt 4 3 1 13 52 58 0 None), (S754_finite true 7940575926016000 (-7)%Z));
  ((0)%Z, (mk_dt 1 8 14 11 37 54 777016 (Some (mk_tz (-21548064136)%Z None))), (S754_finite true 7950862710528000 (-7)%Z));
  ((5400)%Z, (mk_dt 400 6 23 13 22 44 123000 (Some (mk_tz (-76694699699)%Z None))), (S754_finite true 6339758340608000 (-7)%Z));
  ((-43200)%Z, (mk_dt 812 2 29 20 49 58 0 (Some (mk_tz (-16018000000)%Z None))), (S754_finite true 4676832077056000 (-7)%Z));
  ((43200)%Z, (mk_dt 9999 3 2 15 36 19 123000 (Some (mk_tz (0)%Z None))), (S754_finite false 8108030776928000 (-5)%Z));
  ((0)%Z, (mk_dt 1 2 28 1 28 18 0 (Some (mk_tz (0)%Z None))), (S754_finite true 7952714278656000 (-7)%Z));
  ((5400)%Z, (mk_dt 2662 12 31 11 50 29 0 (Some (mk_tz (-30369000000)%Z None))), (S754_finite false 5598441991424000 (-8)%Z));
  ((-10492)%Z, (mk_dt 2024 12 30 16 19 52 123000 (Some (mk_tz (-82680000000)%Z None))), (S754_finite false 7108960600064000 (-12)%Z));
  ((0)%Z, (mk_dt 9999 3 2 10 48 10 5 (Some (mk_tz (71924000000)%Z None))), (S754_finite false 8108031606080000 (-5)%Z));
  ((3600)%Z, (mk_dt 400 1 1 18 53 37 0 (Some (mk_tz (-46800000000)%Z None))), (S754_finite true 6341679869824000 (-7)%Z));
  ((19800)%Z, (mk_dt 6356 1 5 0 5 21 123000 (Some (mk_tz (-948964228)%Z None))), (S754_finite false 8858180180544000 (-6)%Z));
  ((-9874)%Z, (mk_dt 400 1 1 17 11 16 123000 (Some (mk_tz (-57516024304)%Z None))), (S754_finite true 6341678931200000 (-7)%Z));
  ((-19800)%Z, (mk_dt 4 2 28 12 45 22 867755 (Some (mk_tz (-21720000000)%Z None))), (S754_finite true 7940596720384000 (-7)%Z));
  ((-19800)%Z, (mk_dt 1 3 8 15 50 45 0 (Some (mk_tz (0)%Z None))), (S754_finite true 7952616647040000 (-7)%Z));
  ((-5400)%Z, (mk_dt 9999 3 2 8 52 29 123000 (Some (mk_tz (-50248003483)%Z None))), (S754_finite false 8108031556768000 (-5)%Z));
  ((0)%Z, (mk_dt 2000 3 1 21 7 43 887790 (Some (mk_tz (38084863154)%Z None))), (S754_finite false 7798332317696000 (-13)%Z));
  ((0)%Z, (mk_dt 9999 2 28 5 30 56 0 (Some (mk_tz (15660000000)%Z None))), (S754_finite false 8108025467392000 (-5)%Z));
  ((0)%Z, (mk_dt 4 1 1 5 55 27 123000 (Some (mk_tz (16140000000)%Z None))), (S754_finite true 7941243836544000 (-7)%Z));
  ((0)%Z, (mk_dt 8409 3 2 19 2 48 123000 None), (S754_finite false 6502416427776000 (-5)%Z));
  ((-8635)%Z, (mk_dt 400 1 1 4 5 51 123000 (Some (mk_tz (45315390369)%Z None))), (S754_finite true 6341685121792000 (-7)%Z));
  ((3600)%Z, (mk_dt 2024 12 30 13 28 56 0 (Some (mk_tz (-394000000)%Z None))), (S754_finite false 7108860870656000 (-12)%Z));
  ((-5400)%Z, (mk_dt 4 8 4 1 12 37 123000 (Some (mk_tz (840000000)%Z None))), (S754_finite true 7938856530304000 (-7)%Z))
].
Example agree_clock_ms : forallb (fun '(o, d, f) => match ms_float (ms_of_local o d) with PFloat g => fl_same f g | _ => false end) cases_clock_ms = true.
Proof. vm_compute. reflexivity. Qed.

(** [v // w] and [v % w] for floats *)
Definition cases_float_divmod : list (spec_float * spec_float * (spec_float * spec_float)) := [
  ((S754_finite false 5935644803072000 (-33)%Z), (S754_finite false 8796093022208000 (-43)%Z), ((S754_finite false 6078100278345728 (-43)%Z), (S754_zero false)));
  ((S754_finite true 8677393443522528 (46)%Z), (S754_finite false 8796093022208000 (-43)%Z), ((S754_finite true 8885650886167069 (36)%Z), (S754_finite false 7177611906121728 (-44)%Z)));
  ((S754_finite true 7759387766552198 (-21)%Z), (S754_finite false 5798205849600000 (-26)%Z), ((S754_finite true 6051711999279104 (-47)%Z), (S754_finite false 8179544025037312 (-29)%Z)));
  (S754_nan, (S754_finite true 4807849855276755 (-49)%Z), (S754_nan, S754_nan));
  ((S754_finite false 7049184750245824 (-14)%Z), (S754_finite false 8796093022208000 (-43)%Z), ((S754_finite false 7218365173071872 (-24)%Z), (S754_finite false 5861462127935488 (-43)%Z)));
  ((S754_finite false 8016942389931832 (-14)%Z), (S754_finite false 8796093022208000 (-43)%Z), ((S754_finite false 8209349000298496 (-24)%Z), (S754_finite false 7331328785645568 (-44)%Z)));
  ((S754_finite false 7149059732806040 (-13)%Z), (S754_finite false 6755399441055744 (-51)%Z), ((S754_finite false 4766039821860864 (-14)%Z), (S754_finite false 8105599719964672 (-52)%Z)));
  ((S754_finite false 7205759403792794 (-56)%Z), (S754_finite false 7730941132800000 (-31)%Z), ((S754_zero false), (S754_finite false 7205759403792794 (-56)%Z)));
  ((S754_finite false 6543004655419392 (-20)%Z), (S754_finite false 7730941132800000 (-31)%Z), ((S754_finite false 7621814603743232 (-42)%Z), (S754_finite false 4705102313029632 (-32)%Z)));
  (S754_nan, (S754_finite false 8796093022208000 (-43)%Z), (S754_nan, S754_nan));
  ((S754_finite false 5825040695689216 (-19)%Z), (S754_finite false 5798205849600000 (-26)%Z), ((S754_finite false 4503599627370496 (-45)%Z), (S754_finite false 6869720598839296 (-27)%Z)));
  ((S754_finite false 4771440230400000 (-21)%Z), (S754_finite false 7730941132800000 (-31)%Z), ((S754_finite false 5559130790035456 (-43)%Z), (S754_zero false)));
  ((S754_finite false 6500190299750400 (-17)%Z), (S754_finite false 6755399441055744 (-51)%Z), ((S754_finite false 8666920399667200 (-19)%Z), (S754_zero false)));
  ((S754_infinity true), (S754_finite false 6755399441055744 (-51)%Z), (S754_nan, S754_nan));
  ((S754_finite true 4777992860219066 (13)%Z), (S754_finite false 5047715795773403 (7)%Z), ((S754_finite true 8584986789675008 (-47)%Z), (S754_finite false 8476481952629436 (5)%Z)));
  ((S754_finite false 6367304066138112 (-16)%Z), (S754_finite false 6755399441055744 (-51)%Z), ((S754_finite false 8489738754850816 (-18)%Z), (S754_zero false)));
  ((S754_finite false 4743136299319296 (-17)%Z), (S754_infinity true), ((S754_finite true 4503599627370496 (-52)%Z), (S754_infinity true)));
  ((S754_finite false 4867140316495872 (-16)%Z), (S754_finite false 8796093022208000 (-43)%Z), ((S754_finite false 4983951655436288 (-26)%Z), (S754_finite false 7511863440965632 (-44)%Z)));
  ((S754_finite false 7413851750400000 (-21)%Z), (S754_finite false 7730941132800000 (-31)%Z), ((S754_finite false 8637763347808256 (-43)%Z), (S754_zero false)));
  ((S754_finite true 4603474554528668 (-24)%Z), (S754_finite false 7730941132800000 (-31)%Z), ((S754_finite true 5418393301680128 (-46)%Z), (S754_finite false 6037724245930496 (-31)%Z)));
  ((S754_finite false 6938358175917671 (-47)%Z), (S754_finite false 7205759403792794 (-56)%Z), ((S754_finite false 8672947719897088 (-44)%Z), (S754_finite false 7740561859543040 (-102)%Z)));
  ((S754_finite false 4584098986593296 (-50)%Z), (S754_finite false 7205759403792794 (-56)%Z), ((S754_finite false 5629499534213120 (-47)%Z), (S754_finite false 5151958990259184 (-56)%Z)));
  ((S754_finite false 7205759403792794 (-56)%Z), (S754_finite false 6755399441055744 (-51)%Z), ((S754_zero false), (S754_finite false 7205759403792794 (-56)%Z)));
  ((S754_finite false 5725167264084637 (-14)%Z), (S754_finite false 7730941132800000 (-31)%Z), ((S754_finite false 6670256009379840 (-36)%Z), (S754_finite false 5322582869540864 (-31)%Z)));
  ((S754_finite false 6620312914886656 (-19)%Z), (S754_infinity false), ((S754_zero false), (S754_finite false 6620312914886656 (-19)%Z)));
  ((S754_finite false 7134948881767275 (-15)%Z), (S754_finite false 8796093022208000 (-43)%Z), ((S754_finite false 7306187624153088 (-25)%Z), (S754_finite false 8067901449830400 (-43)%Z)));
  ((S754_finite false 5350917301207040 (-16)%Z), (S754_finite false 7730941132800000 (-31)%Z), ((S754_finite false 6234230929489920 (-38)%Z), (S754_finite false 8905872386293760 (-34)%Z)));
  ((S754_finite false 4738772008989239 (-20)%Z), (S754_finite false 8471958741686206 (7)%Z), ((S754_zero false), (S754_finite false 4738772008989239 (-20)%Z)));
  ((S754_finite false 6697724429285171 (-13)%Z), (S754_finite false 7205759403792794 (-56)%Z), ((S754_finite false 8372155536606208 (-10)%Z), (S754_finite false 7185641036349080 (-58)%Z)));
  ((S754_infinity false), (S754_finite false 7205759403792794 (-56)%Z), (S754_nan, S754_nan));
  ((S754_finite true 4995954171651320 (-36)%Z), (S754_finite false 8796093022208000 (-43)%Z), ((S754_finite true 5136918324969472 (-46)%Z), (S754_finite false 5265313299630080 (-44)%Z)));
  ((S754_finite false 5313284981520113 (-14)%Z), (S754_finite false 7730941132800000 (-31)%Z), ((S754_finite false 6190387903332352 (-36)%Z), (S754_finite false 8499945829302272 (-32)%Z)));
  ((S754_finite false 6838033611489280 (-20)%Z), (S754_finite false 7730941132800000 (-31)%Z), ((S754_finite false 7964862231609344 (-42)%Z), (S754_finite false 7116889658490880 (-32)%Z)));
  ((S754_finite false 7205759403792794 (-56)%Z), (S754_finite false 7205759403792794 (-56)%Z), ((S754_finite false 4503599627370496 (-52)%Z), (S754_zero false)));
  ((S754_finite false 5093983290330890 (-13)%Z), (S754_finite false 7730941132800000 (-31)%Z), ((S754_finite false 5934888888827904 (-35)%Z), (S754_finite false 7155674222428160 (-31)%Z)));
  ((S754_finite false 1 (-1074)%Z), (S754_finite false 7730941132800000 (-31)%Z), ((S754_zero false), (S754_finite false 1 (-1074)%Z)))
].
Example agree_float_divmod : forallb (fun '(v, w, (q, r)) => let '(q', r') := f_divmod v w in fl_same q q' && fl_same r r') cases_float_divmod = true.
Proof. vm_compute. reflexivity. Qed.

(** [v * w] and [v - w] for floats *)
Definition cases_float_arith : list (spec_float * spec_float * (spec_float * spec_float)) := [
  ((S754_finite false 7317609845529947 (-22)%Z), (S754_finite false 7432958663214059 (-22)%Z), ((S754_finite false 6038668620184352 (9)%Z), (S754_finite true 7382324331783168 (-28)%Z)));
  ((S754_finite false 7297458607840142 (-22)%Z), S754_nan, (S754_nan, S754_nan));
  ((S754_finite false 6244952121300239 (-23)%Z), (S754_zero true), ((S754_zero true), (S754_finite false 6244952121300239 (-23)%Z)));
  ((S754_finite false 7301531168686888 (-22)%Z), (S754_finite false 8796093022208000 (-43)%Z), ((S754_finite false 7130401531920789 (-12)%Z), (S754_finite false 7301526974382888 (-22)%Z)));
  ((S754_finite false 7261732772994462 (-23)%Z), (S754_finite false 8796093022208000 (-43)%Z), ((S754_finite false 7091535911127404 (-13)%Z), (S754_finite false 7261724384386462 (-23)%Z)));
  ((S754_finite false 7401326334910590 (-23)%Z), (S754_finite false 7350885313625971 (-12)%Z), ((S754_finite false 6040312811777792 (18)%Z), (S754_finite true 7347271384751503 (-12)%Z)));
  ((S754_finite false 4868078025513258 (-22)%Z), (S754_finite false 7242907631130631 (-12)%Z), ((S754_finite false 7829079491356985 (18)%Z), (S754_finite true 7238153648683841 (-12)%Z)));
  ((S754_finite false 7441392927363837 (-22)%Z), (S754_finite false 7129934179045032 (-12)%Z), ((S754_finite false 5890470530513546 (19)%Z), (S754_finite true 7122667193764403 (-12)%Z)));
  ((S754_finite false 4931553956623629 (-26)%Z), (S754_finite false 5313967578441880 (-49)%Z), ((S754_finite false 5818927081698785 (-23)%Z), (S754_finite false 4931553323149329 (-26)%Z)));
  ((S754_zero false), (S754_finite false 7483423284372417 (-22)%Z), ((S754_zero false), (S754_finite true 7483423284372417 (-22)%Z)));
  ((S754_infinity false), (S754_finite false 7334921195974047 (-22)%Z), ((S754_infinity false), (S754_infinity false)));
  ((S754_finite false 5519304597831063 (-24)%Z), (S754_finite false 7030300425766550 (-12)%Z), ((S754_finite false 8615856797803856 (16)%Z), (S754_finite true 7028952939292470 (-12)%Z)));
  ((S754_infinity true), (S754_finite false 7317310804610563 (-12)%Z), ((S754_infinity true), (S754_infinity true)));
  ((S754_finite false 7385465016130325 (-22)%Z), (S754_finite false 6973740047498367 (-12)%Z), ((S754_finite false 5718127432928346 (19)%Z), (S754_finite true 6966527679318552 (-12)%Z)));
  ((S754_finite false 1 (-1074)%Z), (S754_finite false 7155490334044671 (-22)%Z), ((S754_finite false 1706001838 (-1074)%Z), (S754_finite true 7155490334044671 (-22)%Z)));
  ((S754_finite false 7335377503883972 (-22)%Z), (S754_finite false 8796093022208000 (-43)%Z), ((S754_finite false 7163454593636691 (-12)%Z), (S754_finite false 7335373309579972 (-22)%Z)));
  ((S754_infinity false), (S754_finite false 7272608982567392 (-12)%Z), ((S754_infinity false), (S754_infinity false)));
  ((S754_finite false 6364083041824955 (-22)%Z), (S754_finite true 4589562517666376 (-51)%Z), ((S754_finite true 6485558087926619 (-21)%Z), (S754_finite false 6364083050373681 (-22)%Z)));
  ((S754_finite false 6533245387224808 (-23)%Z), (S754_finite false 7468105796740695 (-22)%Z), ((S754_finite false 5416885578742092 (8)%Z), (S754_finite true 8402966206256582 (-23)%Z)));
  ((S754_zero true), (S754_finite false 5010420900022432 (971)%Z), ((S754_zero true), (S754_finite true 5010420900022432 (971)%Z)));
  ((S754_finite false 7388464561010874 (509)%Z), (S754_finite false 8796093022208000 (-43)%Z), ((S754_finite false 7215297422862182 (519)%Z), (S754_finite false 7388464561010874 (509)%Z)));
  ((S754_finite false 5010420900022432 (971)%Z), (S754_finite false 7043021800060126 (-12)%Z), ((S754_infinity false), (S754_finite false 5010420900022432 (971)%Z)));
  ((S754_finite false 7198111623335288 (-22)%Z), (S754_finite false 7177119611820766 (-22)%Z), ((S754_finite false 5735601782398925 (9)%Z), (S754_finite false 5373954947717632 (-30)%Z)));
  ((S754_finite false 8789945730776172 (-24)%Z), (S754_finite false 8796093022208000 (-43)%Z), ((S754_finite false 8583931377711105 (-14)%Z), (S754_finite false 8789928953560172 (-24)%Z)));
  ((S754_finite false 1 (-1074)%Z), (S754_finite false 7012574992806602 (-12)%Z), ((S754_finite false 1712054441603 (-1074)%Z), (S754_finite true 7012574992806602 (-12)%Z)));
  ((S754_finite false 6906321527342462 (-22)%Z), (S754_finite false 7210331276465868 (-12)%Z), ((S754_finite false 5528562731385786 (19)%Z), (S754_finite true 7203586821849323 (-12)%Z)));
  ((S754_finite false 7380376051419474 (-22)%Z), (S754_finite false 7297773033388201 (-22)%Z), ((S754_finite false 5979695552528544 (9)%Z), (S754_finite false 5286593154001472 (-28)%Z)));
  ((S754_finite false 7260956484724674 (-22)%Z), (S754_finite false 8796093022208000 (-43)%Z), ((S754_finite false 7090777817113939 (-12)%Z), (S754_finite false 7260952290420674 (-22)%Z)));
  ((S754_finite false 7009867360472396 (-23)%Z), (S754_finite false 7337006700244599 (-22)%Z), ((S754_finite false 5710037308716208 (8)%Z), (S754_finite true 7664146040016802 (-23)%Z)));
  ((S754_finite false 8235559796766303 (-22)%Z), (S754_zero false), ((S754_zero false), (S754_finite false 8235559796766303 (-22)%Z)));
  ((S754_finite false 1 (-1074)%Z), (S754_finite false 7047445757532083 (-12)%Z), ((S754_finite false 1720567811897 (-1074)%Z), (S754_finite true 7047445757532083 (-12)%Z)));
  ((S754_finite false 7296107463449005 (-22)%Z), (S754_finite false 8796093022208000 (-43)%Z), ((S754_finite false 7125104944774419 (-12)%Z), (S754_finite false 7296103269145005 (-22)%Z)));
  ((S754_finite false 7895644481307091 (-23)%Z), (S754_finite false 7073579375762545 (-12)%Z), ((S754_finite false 6200647546675508 (18)%Z), (S754_finite true 7069724080605657 (-12)%Z)));
  ((S754_finite false 7173887550042038 (-22)%Z), (S754_finite false 7261568659407861 (7)%Z), ((S754_finite false 5783559964223251 (38)%Z), (S754_finite true 7261568646045454 (7)%Z)));
  ((S754_finite false 5176714761189379 (-25)%Z), (S754_finite false 8796093022208000 (-43)%Z), ((S754_finite false 5055385508974003 (-15)%Z), (S754_finite false 5176681206757379 (-25)%Z)));
  ((S754_finite false 5010420900022432 (971)%Z), (S754_finite false 5010420900022432 (971)%Z), ((S754_infinity false), (S754_zero false)))
].
Example agree_float_arith : forallb (fun '(v, w, (p, d)) => fl_same p (f_mul v w) && fl_same d (f_sub v w)) cases_float_arith = true.
Proof. vm_compute. reflexivity. Qed.

(** [a / b] for ints with [a <= b] *)
Definition cases_int_div : list (Z * Z * spec_float) := [
  ((1861037736268040)%Z, (4226331333750822)%Z, (S754_finite false 7932524162170508 (-54)%Z));
  ((2169264941336763)%Z, (2443670320926290)%Z, (S754_finite false 7995760064531889 (-53)%Z));
  ((71296817716584)%Z, (180808432264342)%Z, (S754_finite false 7103481130386060 (-54)%Z));
  ((218676203104409)%Z, (218676203104409)%Z, (S754_finite false 4503599627370496 (-52)%Z));
  ((306987924473430)%Z, (4064112560387272)%Z, (S754_finite false 5442962247616634 (-56)%Z));
  ((27)%Z, (2609117322851917)%Z, (S754_finite false 6559031651507063 (-99)%Z));
  ((191960519517152)%Z, (191960519517152)%Z, (S754_finite false 4503599627370496 (-52)%Z));
  ((6060384531758700)%Z, (6100339653745848)%Z, (S754_finite false 8948205204341726 (-53)%Z));
  ((977)%Z, (977)%Z, (S754_finite false 4503599627370496 (-52)%Z));
  ((3865542908930168)%Z, (6616520872708317)%Z, (S754_finite false 5262239155339251 (-53)%Z));
  ((423)%Z, (655)%Z, (S754_finite false 5816863030160977 (-53)%Z));
  ((90)%Z, (568)%Z, (S754_finite false 5708788260047108 (-55)%Z));
  ((4542784712362533)%Z, (4542784712362533)%Z, (S754_finite false 4503599627370496 (-52)%Z));
  ((3634957543062563)%Z, (3634957543062563)%Z, (S754_finite false 4503599627370496 (-52)%Z));
  ((43)%Z, (941)%Z, (S754_finite false 6585497435984912 (-57)%Z));
  ((25)%Z, (4599418669967415)%Z, (S754_finite false 6890276202216280 (-100)%Z));
  ((323)%Z, (323)%Z, (S754_finite false 4503599627370496 (-52)%Z));
  ((25)%Z, (1474282847883498195604332756103828247558744908049310931245132)%Z, (S754_finite false 7670048682188314 (-248)%Z));
  ((78)%Z, (641)%Z, (S754_finite false 8768318775286083 (-56)%Z));
  ((1161130586604082904326498146971398885823660271366204898264349)%Z, (1161130586604082904326498146971398885823660271366204898264349)%Z, (S754_finite false 4503599627370496 (-52)%Z));
  ((423)%Z, (782)%Z, (S754_finite false 4872180671042762 (-53)%Z));
  ((198)%Z, (305)%Z, (S754_finite false 5847296565372841 (-53)%Z));
  ((26)%Z, (5771691098017394)%Z, (S754_finite false 5710443446506609 (-100)%Z));
  ((296)%Z, (296)%Z, (S754_finite false 4503599627370496 (-52)%Z));
  ((2434357440953743)%Z, (8079305324310818)%Z, (S754_finite false 5427878177088731 (-54)%Z));
  ((8460191822941783)%Z, (8919710127060123)%Z, (S754_finite false 8543173757562786 (-53)%Z));
  ((13)%Z, (832)%Z, (S754_finite false 4503599627370496 (-58)%Z));
  ((1536175738855750896986512783193818903439583176599677209109581)%Z, (1536175738855750896986512783193818903439583176599677209109581)%Z, (S754_finite false 4503599627370496 (-52)%Z));
  ((75)%Z, (7675211825477932)%Z, (S754_finite false 6193561635753095 (-99)%Z));
  ((690572284377378159278709742086051777884271705497541709126739)%Z, (690572284377378159278709742086051777884271705497541709126739)%Z, (S754_finite false 4503599627370496 (-52)%Z));
  ((248)%Z, (248)%Z, (S754_finite false 4503599627370496 (-52)%Z));
  ((37)%Z, (636)%Z, (S754_finite false 8384059683658282 (-57)%Z));
  ((127978110454373319392748412045742289557491202503633501982823)%Z, (166824332491322660865747452896729364540662328500141070893141)%Z, (S754_finite false 6909809401861389 (-53)%Z));
  ((85)%Z, (596967309456465407155960126851177235731543695152854853666347)%Z, (S754_finite false 8050397299934019 (-245)%Z));
  ((750)%Z, (750)%Z, (S754_finite false 4503599627370496 (-52)%Z));
  ((1223782007150124159457161401322728909998149251497629409581571)%Z, (1223782007150124159457161401322728909998149251497629409581571)%Z, (S754_finite false 4503599627370496 (-52)%Z))
].
Example agree_int_div : forallb (fun '(a, b, f) => fl_same f (int_div a b)) cases_int_div = true.
Proof. vm_compute. reflexivity. Qed.
