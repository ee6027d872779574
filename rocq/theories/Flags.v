(** * Model of sarflags/sarflags.go: flag tables and header bit fields *)

From Verif Require Import GoBase.
Local Open Scope string_scope.
Local Open Scope N_scope.

(** sarflags.go:205-232 Flagtype, DirentFlagtype and TimeStamptype.  One record
    serves the three: [f_frametypes] is empty for the last two.  Options is a Go
    map, so keys are unique; its random iteration order is represented by
    proving results for every permutation of the list. *)
Record ftype := {
  f_frametypes : list string;
  f_len : N;
  f_msb : N;
  f_opts : list (string * N)
}.

(** Go's zero value, returned by indexing a map with a missing key (sarflags/sarflags.go:660-720) *)
Definition zero_ftype : ftype := {| f_frametypes := []; f_len := 0; f_msb := 0; f_opts := [] |}.

(** The package variables Flags, DirentFlags, TimeStamps, Frameflags
    (sarflags.go:214, 225, 236, 240) *)
Record tables := {
  t_flags : list (string * ftype);
  t_dirent : list (string * ftype);
  t_tstamps : ftype;
  t_frameflags : list (string * list string)
}.

(** sarflags.go:214: Flags[field], zero value when missing *)
Definition flag_of (T : tables) (field : string) : ftype :=
  match lookup field (t_flags T) with Some f => f | None => zero_ftype end.
(** sarflags.go:225: DirentFlags[field], zero value when missing *)
Definition dflag_of (T : tables) (field : string) : ftype :=
  match lookup field (t_dirent T) with Some f => f | None => zero_ftype end.

(** ** Bit twiddling common to Get/GetD/GetT and Set/SetD/SetT *)

(** sarflags.go:676, 718 (w=32), 793, 803, 832 (w=16), 938, 948, 971 (w=8):
    shiftbits := flagsize - Len - Msb *)
Definition shiftbits (w : N) (fl : ftype) : N := go_sub w (go_sub w w (f_len fl)) (f_msb fl).
(** sarflags.go:677, 719, 794, 804, 833, 939, 949, 972: maskbits := (1 << Len) - 1 *)
Definition maskbits (w : N) (fl : ftype) : N := go_sub w (go_shl w 1 (f_len fl)) 1.
(** sarflags.go:678, 720, 795, 805, 834, 940, 950, 973: setbits := maskbits << shiftbits *)
Definition setbits (w : N) (fl : ftype) : N := go_shl w (maskbits w fl) (shiftbits w fl).
(** sarflags.go:679, 796, 806, 941, 951: (curflag & setbits) >> shiftbits *)
Definition get_bits (w : N) (fl : ftype) (cur : N) : N :=
  go_shr w (N.land cur (setbits w fl)) (shiftbits w fl).
(** sarflags.go:722-723, 836-837, 975-976: result := curflag & ^setbits; result |= newval << shiftbits *)
Definition set_bits (w : N) (fl : ftype) (cur newval : N) : N :=
  N.lor (N.land cur (go_not w (setbits w fl))) (go_shl w newval (shiftbits w fl)).

(** sarflags.go:685-692, 746-753, 807-813, 870-877, 952-958, 984-991: range over
    the options for one whose value is [v]; log.Fatalln when there is none *)
Fixpoint opt_name (opts : list (string * N)) (v : N) : outcome string :=
  match opts with
  | [] => Fatal
  | (k, f) :: r => if f =? v then Ret k else opt_name r v
  end.

(** ** 32-bit header flags *)

(** sarflags.go:762-765 Good *)
Definition sf_good (T : tables) (field : string) : bool := has_key field (t_flags T).
(** sarflags.go:569-575 Valid *)
Definition sf_valid (T : tables) (flag option : string) : bool :=
  if sf_good T flag then has_key option (f_opts (flag_of T flag)) else false.
(** sarflags.go:674-680 Get *)
Definition sf_get (T : tables) (cur : N) (field : string) : N := get_bits 32 (flag_of T field) cur.
(** sarflags.go:683-693 GetStr *)
Definition sf_getstr (T : tables) (cur : N) (field : string) : outcome string :=
  opt_name (f_opts (flag_of T field)) (sf_get T cur field).
(** sarflags.go:697-726 Set.  Both error returns are preceded by log.Fatalln and
    so are unreachable; the result is the new header. *)
Definition sf_set (T : tables) (cur : N) (field flagname : string) : outcome N :=
  match lookup field (t_flags T) with
  | None => Fatal
  | Some fl =>
      if sf_good T field then
        match lookup flagname (f_opts (flag_of T field)) with
        | None => Fatal
        | Some newval => Ret (set_bits 32 fl cur newval)
        end
      else Fatal
  end.
(** sarflags.go:729-734 SetFlags.  The map argument is given as the list of its
    entries in the order the range statement happens to visit them. *)
Fixpoint sf_setflags (T : tables) (cur : N) (flags : list (string * string)) : outcome N :=
  match flags with
  | [] => Ret cur
  | (f, v) :: r => do cur' <- sf_set T cur f v; sf_setflags T cur' r
  end.
(** sarflags.go:737-740 Test (its third parameter is never used) *)
Definition sf_test (T : tables) (cur : N) (field unused flagname : string) : outcome bool :=
  do v <- sf_set T 0 field flagname;
  Ret (sf_get T cur field =? sf_get T v field).
(** sarflags.go:743-754 Name *)
Definition sf_name (T : tables) (cur : N) (field : string) : outcome string :=
  opt_name (f_opts (flag_of T field)) (sf_get T cur field).
(** sarflags.go:660-662 Values, 757-759 Fields *)
Definition sf_values (T : tables) (frametype : string) : list string :=
  match lookup frametype (t_frameflags T) with Some l => l | None => [] end.
(** sarflags.go:665-671 Value *)
Definition sf_value (T : tables) (flag option : string) : Z :=
  match lookup option (f_opts (flag_of T flag)) with
  | None => -1
  | Some v => Z.of_N v
  end.

(** ** Flag-list strings "name=val,name=val" *)

(** sarflags.go:578-590 AddFlag *)
Definition sf_addflag (T : tables) (cur flag option : string) : outcome string :=
  if sf_valid T flag option then
    if negb (String.eqb cur "") then Ret (cur ++ "," ++ flag ++ "=" ++ option)
    else Ret (flag ++ "=" ++ option)
  else Fatal.

(** sarflags.go:598-604, the loop of FlagValue: f[1] panics when there is no '=' *)
Fixpoint flagvalue_loop (items : list string) (flag : string) : outcome string :=
  match items with
  | [] => Ret ""
  | it :: r =>
      let f := split_on "=" it in
      do f0 <- index f 0;
      if String.eqb f0 flag then index f 1 else flagvalue_loop r flag
  end.
(** sarflags.go:594-605 FlagValue *)
Definition sf_flagvalue (flags flag : string) : outcome string :=
  flagvalue_loop (split_on "," (remove_spaces flags)) flag.

(** sarflags.go:613-622, the loop of ReplaceFlag *)
Fixpoint replace_loop (add : string -> string -> string -> outcome string)
  (items : list string) (newflags : string) (replaced : bool) (value option : string)
  : outcome (string * bool) :=
  match items with
  | [] => Ret (newflags, replaced)
  | it :: r =>
      let f := split_on "=" it in
      do f0 <- index f 0;
      if String.eqb f0 value then
        do nf <- add newflags value option;
        replace_loop add r nf true value option
      else
        do f1 <- index f 1;
        do nf <- add newflags f0 f1;
        replace_loop add r nf replaced value option
  end.
(** sarflags.go:609-627 ReplaceFlag *)
Definition sf_replaceflag (T : tables) (flags value option : string) : outcome string :=
  do ' (nf, replaced) <- replace_loop (sf_addflag T) (split_on "," flags) "" false value option;
  if replaced then Ret nf else sf_addflag T nf value option.

(** ** 16-bit directory entry flags *)

(** sarflags.go:881-884 GoodD *)
Definition sd_good (T : tables) (field : string) : bool := has_key field (t_dirent T).
(** sarflags.go:887-893 ValidD *)
Definition sd_valid (T : tables) (flag option : string) : bool :=
  if sd_good T flag then has_key option (f_opts (dflag_of T flag)) else false.
(** sarflags.go:789-797 GetD *)
Definition sd_get (T : tables) (cur : N) (field : string) : N := get_bits 16 (dflag_of T field) cur.
(** sarflags.go:800-814 GetDStr *)
Definition sd_getstr (T : tables) (cur : N) (field : string) : outcome string :=
  opt_name (f_opts (dflag_of T field)) (get_bits 16 (dflag_of T field) cur).
(** sarflags.go:867-878 NameD *)
Definition sd_name (T : tables) (cur : N) (field : string) : outcome string :=
  opt_name (f_opts (dflag_of T field)) (sd_get T cur field).
(** sarflags.go:817-840 SetD (error returns unreachable after log.Fatalln) *)
Definition sd_set (T : tables) (cur : N) (field flagname : string) : outcome N :=
  if sd_good T field then
    match lookup flagname (f_opts (dflag_of T field)) with
    | None => Fatal
    | Some newval => Ret (set_bits 16 (dflag_of T field) cur newval)
    end
  else Fatal.
(** sarflags.go:861-864 TestD *)
Definition sd_test (T : tables) (cur : N) (field flagname : string) : outcome bool :=
  do v <- sd_set T 0 field flagname;
  Ret (sd_get T cur field =? sd_get T v field).
(** sarflags.go:843-849 FrameD, in some map order *)
Definition sd_frame (T : tables) (field : string) : list string := keys (f_opts (dflag_of T field)).
(** sarflags.go:852-858 FlagD, in some map order *)
Definition sd_flags (T : tables) : list string := keys (t_dirent T).
(** sarflags.go:896-908 AddFlagD *)
Definition sd_addflag (T : tables) (cur flag option : string) : outcome string :=
  if sd_valid T flag option then
    if negb (String.eqb cur "") then Ret (cur ++ "," ++ flag ++ "=" ++ option)
    else Ret (flag ++ "=" ++ option)
  else Fatal.
(** sarflags.go:911-929 ReplaceFlagD *)
Definition sd_replaceflag (T : tables) (flags value option : string) : outcome string :=
  do ' (nf, replaced) <- replace_loop (sd_addflag T) (split_on "," flags) "" false value option;
  if replaced then Ret nf else sd_addflag T nf value option.

(** ** 8-bit timestamp type *)

(** sarflags.go:935-942 GetT *)
Definition st_get (T : tables) (cur : N) : N := get_bits 8 (t_tstamps T) cur.
(** sarflags.go:945-959 GetTStr *)
Definition st_getstr (T : tables) (cur : N) : outcome string :=
  opt_name (f_opts (t_tstamps T)) (get_bits 8 (t_tstamps T) cur).
(** sarflags.go:982-992 NameT *)
Definition st_name (T : tables) (cur : N) : outcome string :=
  opt_name (f_opts (t_tstamps T)) (st_get T cur).
(** sarflags.go:962-979 SetT *)
Definition st_set (T : tables) (cur : N) (flagname : string) : outcome N :=
  match lookup flagname (f_opts (t_tstamps T)) with
  | None => Fatal
  | Some newval => Ret (set_bits 8 (t_tstamps T) cur newval)
  end.
(** sarflags.go:995-1001 FrameT, in some map order *)
Definition st_frame (T : tables) : list string := keys (f_opts (t_tstamps T)).
(** sarflags.go:1004-1007 GoodT *)
Definition st_good (T : tables) (field : string) : bool := has_key field (f_opts (t_tstamps T)).
