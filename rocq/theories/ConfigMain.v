(** * Reading a configuration file: the properties (proofs) *)

From Verif Require Import GoBase GoFacts Flags SpecFlags FlagsFacts FlagStrFacts Config Shipped ConfigFacts SpecConfig ReadShape ReadFacts.
Local Open Scope string_scope.
Local Open Scope N_scope.

(** C90: a configuration is read without a panic exactly if every member it has is of the
    right type; absent members and unknown ones do not matter *)
Lemma c90_panics : forall env obj, (readconfig env obj = Panic <-> ~ config_shape (JObj obj)) /\ readconfig env obj <> Fatal.
Proof.
  intros env obj. unfold readconfig.
  pose proof (good_obj read_key _ (JObj obj) init_confst good_key) as (G & F). fold config_shape in G. cbn [as_obj obind] in G, F.
  destruct (ofold read_key init_confst obj) as [c| |]; cbn [obind].
  - split; [|discriminate]. split; [discriminate|]. intros N. exfalso. apply N, G. eauto.
  - split; [|discriminate]. split; [|reflexivity]. intros _ H. apply G in H. destruct H; discriminate.
  - congruence.
Qed.

(** C90: every setting is the one in the file, and "" or 0 if it is not there; but the
    environment variable SARDIR, if it is not empty, replaces the directory *)
Lemma c90_settings : forall env obj cli T cmds e, distinct (JObj obj) -> readconfig env obj = Ret (cli, T, cmds, e) ->
  let doc := JObj obj in let time := get doc "timeout" in
  (forall f v, lookup f (cl_global cli) = Some v <->
     In f ["csumtype"; "freespace"; "txwilling"; "rxwilling"; "stream"; "reqtstamp"; "reqstatus"; "udplite"; "descriptor"] /\ v = text (get doc f)) /\
  cl_v4 cli = text (get doc "v4multicast") /\ cl_v6 cli = text (get doc "v6multicast") /\ cl_port cli = Z.of_N (num (get doc "udpport")) /\
  cl_timestamp cli = text (get doc "timestamp") /\ cl_timezone cli = text (get doc "timezone") /\
  cl_prompt cli = text (get doc "prompt") /\ cl_ppad cli = Z.of_N (num (get doc "ppad")) /\
  cl_sardir cli = (if String.eqb env "" then text (get doc "sardir") else env) /\
  cl_buffersize cli = Z.of_N (num (get doc "buffersize")) /\ cl_bcount cli = num (get doc "bcount") /\
  to_metadata (cl_timeout cli) = Z.of_N (num (get time "metadata")) /\ to_request (cl_timeout cli) = Z.of_N (num (get time "request")) /\
  to_status (cl_timeout cli) = Z.of_N (num (get time "status")) /\ to_transfer (cl_timeout cli) = Z.of_N (num (get time "transfer")) /\
  to_binterval (cl_timeout cli) = num (get time "binterval") /\ to_datacounter (cl_timeout cli) = Z.of_N (num (get time "datacounter")).
Proof.
  intros env obj cli T cmds e D H doc time. unfold readconfig in H. destruct (ofold read_key init_confst obj) as [c| |] eqn:O; try discriminate.
  cbn [obind] in H. assert (X : cli = cli_of env c) by congruence. clear H.
  pose proof (timers_read _ _ (distinct_get _ "timeout" D) (doc_timeout obj c D O)) as TT. cbv zeta in TT. fold doc in TT. fold time in TT.
  assert (G : forall k, In k settings_texts -> conf_str c k = text (get doc k)) by (apply doc_text; auto).
  assert (N : forall k, In k settings_numbers -> conf_num c k = num (get doc k)) by (apply doc_num; auto).
  subst cli. unfold cli_of. cbn [cl_global cl_v4 cl_v6 cl_port cl_timestamp cl_timezone cl_prompt cl_ppad cl_sardir cl_buffersize cl_bcount cl_timeout].
  rewrite TT. cbn [to_metadata to_request to_status to_transfer to_binterval to_datacounter].
  rewrite !G by (cbn; auto 20). rewrite !N by (cbn; auto 20). split; [|repeat split].
  intros f v. cbn [lookup].
  repeat (match goal with |- context [String.eqb f ?b] => destruct (String.eqb_spec f b) as [->|?] end;
    [split; [intros Q; split; [cbn; auto 20|congruence]|intros (_ & ->); reflexivity]|]).
  split; [discriminate|]. intros (I & _). cbn in I. intuition congruence.
Qed.
(** C90: the commands, the fields of the frames and the flags are those of the file, with
    numbers reduced to the width of their type *)
Lemma c90_tables : forall env obj cli T cmds e, distinct (JObj obj) -> readconfig env obj = Ret (cli, T, cmds, e) ->
  let doc := JObj obj in
  reads_map (fun j c => c_help c = text (get j "help") /\ c_usage c = text (get j "usage")) (get doc "commands") cmds /\
  (forall ft, sf_values T ft = map text (elements (get (get doc "frameflags") ft))) /\
  reads_map (fun j f => reads_flag 32 j f /\ f_frametypes f = map text (elements (get j "frametypes"))) (get doc "flags") (t_flags T) /\
  reads_map (reads_flag 16) (get doc "direntflags") (t_dirent T) /\
  reads_flag 8 (get doc "timestamps") (t_tstamps T).
Proof.
  intros env obj cli T cmds e D H doc. unfold readconfig in H. destruct (ofold read_key init_confst obj) as [c| |] eqn:O; try discriminate.
  cbn [obind] in H. assert (X : T = tables_of c) by congruence. assert (Y : cmds = cs_commands c) by congruence. clear H. subst T cmds.
  cbn [tables_of t_flags t_dirent t_tstamps]. assert (DG : forall k, distinct (get doc k)) by (intros k; apply distinct_get; exact D).
  split; [|split; [|split; [|split]]].
  - eapply (ofold_map (fun _ => Panic)); [|apply DG|apply (doc_commands obj c D O)]. intros m k v m' E. unfold read_cmd in E. cbn [fst snd] in E.
    undone E. inversion E; subst. eexists. split; [reflexivity|]. intros Dv. apply command_read; auto.
  - intros ft. apply (frameflags_read _ _ ft (DG "frameflags") (doc_frameflags obj c D O)).
  - eapply (ofold_map (fun _ => Panic)); [|apply DG|apply (doc_flags obj c D O)]. intros m k v m' E. unfold read_flag in E. cbn [fst snd] in E.
    undone E. inversion E; subst. eexists. split; [reflexivity|]. intros Dv. apply flag_read; auto.
  - eapply (ofold_map (fun _ => Panic)); [|apply DG|apply (doc_dirent obj c D O)]. intros m k v m' E. unfold read_dflag in E. cbn [fst snd] in E.
    undone E. inversion E; subst. eexists. split; [reflexivity|]. intros Dv. apply small_read; auto.
  - apply small_read; [apply DG|]. apply (doc_timestamps obj c D O).
Qed.
Example c90_ex : distinct (JObj saratoga_json) /\
  text (get (get (get (JObj saratoga_json) "commands") "ls") "usage") = "ls [<peer> [<dirname>>]]" /\
  num (get (get (get (get (JObj saratoga_json) "flags") "frametype") "options") "status") = 4 /\
  readconfig "" (("prompt", JNum 1) :: saratoga_json) = Panic.
Proof.
  split; [|repeat split; vm_compute; reflexivity]. vm_compute.
  repeat match goal with
  | |- _ /\ _ => split
  | |- True => exact I
  | |- NoDup _ => apply (nodupb_NoDup String.eqb String.eqb_eq); vm_compute; reflexivity
  end.
Qed.
