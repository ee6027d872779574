(** * Names: the properties

    Statements only; the proofs are in NamesMain.v. *)
From Verif Require Import GoBase Flags Config Shipped SpecFlags FlagsFacts NamesMain.
From Coq Require Import Lia.
Local Open Scope string_scope.
Local Open Scope N_scope.

(** C154: the flags of a header.  Good says which flags there are; Valid says which options a flag has, and so does Value with a
    number that is not negative; setting succeeds with these, whatever the header, and ends the process with any other. *)
Theorem C154_header : forall T f v,
  (sf_good T f = true <-> exists fl, lookup f (t_flags T) = Some fl) /\
  (sf_valid T f v = true <-> exists n, option_value T f v n) /\
  (forall n, option_value T f v n -> sf_value T f v = Z.of_N n) /\
  (sf_valid T f v = false <-> sf_value T f v = (-1)%Z) /\
  (sf_valid T f v = true -> forall h, exists h', sf_set T h f v = Ret h') /\
  (sf_valid T f v = false -> forall h, sf_set T h f v = Fatal).
Proof. exact c154_header. Qed.
Print Assumptions C154_header.

(** C154: the flags of a directory entry.  FlagD lists the flags, FrameD the options of each; they are those that GoodD and ValidD
    know, those that can be set, and every name that is read from an entry is among them. *)
Theorem C154_dirent : forall T f v,
  (In f (sd_flags T) <-> exists fl, lookup f (t_dirent T) = Some fl) /\ (sd_good T f = true <-> In f (sd_flags T)) /\
  (In v (sd_frame T f) <-> valid_dsetting T (f, v)) /\ (sd_valid T f v = true <-> In v (sd_frame T f)) /\
  (In v (sd_frame T f) -> forall h, exists h', sd_set T h f v = Ret h') /\
  (~ In v (sd_frame T f) -> forall h, sd_set T h f v = Fatal) /\
  (forall h, sd_getstr T h f = Ret v -> In v (sd_frame T f)).
Proof. exact c154_dirent. Qed.
Print Assumptions C154_dirent.

(** C154: the kinds of timestamp, which FrameT lists, GoodT knows and SetT sets. *)
Theorem C154_time : forall T v,
  (In v (st_frame T) <-> exists n, lookup v (f_opts (t_tstamps T)) = Some n) /\ (st_good T v = true <-> In v (st_frame T)) /\
  (In v (st_frame T) -> forall h, exists h', st_set T h v = Ret h') /\
  (~ In v (st_frame T) -> forall h, st_set T h v = Fatal) /\
  (forall h, st_getstr T h = Ret v -> In v (st_frame T)).
Proof. exact c154_time. Qed.
Print Assumptions C154_time.

(** C154: the names of the shipped configuration. *)
Theorem C154_shipped : forall v,
  (In v (sd_flags sar) <-> In v ["sod"; "property"; "descriptor"; "reserved"]) /\
  (In v (sd_frame sar "sod") <-> v = "sod") /\
  (In v (sd_frame sar "descriptor") <-> In v ["d16"; "d32"; "d64"; "d128"]) /\
  (In v (sd_frame sar "property") <-> In v ["normalfile"; "normaldirectory"; "specialfile"; "specialdirectory"]) /\
  (In v (st_frame sar) <-> In v ["localinterp"; "posix32"; "posix64"; "posix32_32"; "posix64_32"; "epoch2000_32"]).
Proof. exact c154_shipped. Qed.
Print Assumptions C154_shipped.
Example C154_header_ex : sf_valid sar "descriptor" "d16" = true /\ sf_valid sar "descriptor" "d8" = false /\ sf_good sar "descript" = false /\
  sf_value sar "csumlen" "md5" = 4%Z /\ sf_value sar "csumlen" "sha" = (-1)%Z /\ sf_set sar 0 "descriptor" "d8" = Fatal.
Proof. exact c154_header_ex. Qed.
Example C154_dirent_ex : (exists h, sd_set sar 0 "descriptor" "d64" = Ret h /\ sd_getstr sar h "descriptor" = Ret "d64") /\ sd_set sar 0 "descriptor" "d8" = Fatal.
Proof. exact c154_dirent_ex. Qed.
Example C154_time_ex : st_set sar 0 "posix64" = Ret 2 /\ st_good sar "posix16" = false /\ st_set sar 0 "posix16" = Fatal.
Proof. exact c154_time_ex. Qed.
