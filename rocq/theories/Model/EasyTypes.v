(** The resolved ("easy") types of src/easy.rs. *)
From Verif.Model Require Import Base Str Path BMap Error Value De Triple.

(** src/easy.rs:1192-1195 [PathAndArgs]. *)
Record epath_and_args := mkEpa {
  epa_path : path;
  epa_args : list str
}.

(** src/easy.rs:1042-1044 [Flags], src/easy.rs:1250-1252 [StringList]. *)
Record eflags := mkEflags { ef_flags : list str }.
Record estring_list := mkEsl { esl_list : list str }.

(** src/easy.rs:437-528 [BuildConfig]. *)
Record ebuild := mkEbuild {
  eb_jobs : option Z;
  eb_rustc : option path;
  eb_rustc_wrapper : option path;
  eb_rustc_workspace_wrapper : option path;
  eb_rustdoc : option path;
  eb_target : option (list triple);
  eb_target_dir : option path;
  eb_rustflags : option eflags;
  eb_rustdocflags : option eflags;
  eb_incremental : option bool;
  eb_dep_info_basedir : option path;
  eb_override_target_rustflags : bool;
  eb_de_rustflags : option flags;
  eb_override_target_rustdocflags : bool;
  eb_de_rustdocflags : option flags
}.

(** src/easy.rs:590-610 [TargetConfig]. *)
Record etarget := mkEtarget {
  et_linker : option path;
  et_runner : option epath_and_args;
  et_rustflags : option eflags;
  et_rustdocflags : option eflags
}.

(** src/easy.rs:636-643 [DocConfig]. *)
Record edoc := mkEdoc { ed_browser : option epath_and_args }.

(** src/easy.rs:660-664 [EnvConfigValue]. *)
Record eenv := mkEenv {
  ee_value : str;
  ee_force : bool;
  ee_relative : bool
}.

(** src/easy.rs:729-735, 750-756 *)
Record efuture := mkEfuture { efr_frequency : option frequency }.
Record ecargo_new := mkEcargoNew { ecn_vcs : option vcs }.

(** src/easy.rs:770-824 [HttpConfig]. *)
Record ehttp := mkEhttp {
  eh_debug : option bool;
  eh_proxy : option str;
  eh_timeout : option N;
  eh_cainfo : option str;
  eh_check_revoke : option bool;
  eh_low_speed_limit : option N;
  eh_multiplexing : option bool;
  eh_user_agent : option str
}.

(** src/easy.rs:847-868 [NetConfig]. *)
Record enet := mkEnet {
  en_retry : option N;
  en_git_fetch_with_cli : option bool;
  en_offline : option bool
}.

(** src/easy.rs:885-906, 938-956 *)
Record eregistries := mkEregistries {
  er_index : option str;
  er_token : option str;
  er_protocol : option protocol
}.
Record eregistry := mkEregistry {
  erg_default : option str;
  erg_token : option str
}.

(** src/easy.rs:983-1002, 1017-1028 *)
Record eprogress := mkEprogress {
  epr_when : option when;
  epr_width : option N
}.
Record eterm := mkEterm {
  etm_quiet : option bool;
  etm_verbose : option bool;
  etm_color : option color;
  etm_progress : eprogress
}.

(** ** [Flags] *)

(** src/easy.rs:1055-1057 [Flags::from_encoded]. *)
Definition eflags_from_encoded (s : str) : eflags := mkEflags (split_encoded s).
(** src/easy.rs:1079-1081 [Flags::from_space_separated]. *)
Definition eflags_from_space_separated (s : str) : eflags :=
  mkEflags (split_space_separated s).

(** src/easy.rs:1143-1152: the loop of [encode_internal]; [None] is [bail!]. *)
Fixpoint encode_loop (sep : ascii) (buf : str) (fs : list str) : option str :=
  match fs with
  | [] => Some buf
  | f :: rest =>
      if contains sep f then None
      else encode_loop sep ((if is_empty buf then buf else buf ++ [sep]) ++ f) rest
  end.

(** src/easy.rs:1139-1153 [encode_internal]; the message prints the separator with
    [{:?}], given here as [sep_debug]. *)
Definition encode_internal (sep : ascii) (sep_debug : str) (f : eflags) : result str :=
  match encode_loop sep [] (ef_flags f) with
  | Some s => Ok s
  | None => bail (B "flag in rustflags must not contain its separator (" ++ sep_debug ++ B ")")
  end.
(** src/easy.rs:1103-1105 [encode]. *)
Definition encode (f : eflags) : result str := encode_internal us (B "'\u{1f}'") f.
(** src/easy.rs:1135-1137 [encode_space_separated]. *)
Definition encode_space_separated (f : eflags) : result str := encode_internal sp (B "' '") f.
(** src/easy.rs:1156-1158 [push]. *)
Definition eflags_push (f : eflags) (s : str) : eflags := mkEflags (ef_flags f ++ [s]).

(** ** [StringList] *)
(** src/easy.rs:1255-1260 *)
Definition esl_from_string (s : str) : estring_list := mkEsl (split_space_separated s).
Definition esl_from_array (l : list str) : estring_list := mkEsl l.

(** ** [PathAndArgs] *)
(** src/easy.rs:1199-1211 *)
Definition epa_new (p : path) : epath_and_args := mkEpa p [].
Definition epa_add_args (e : epath_and_args) (l : list str) : epath_and_args :=
  mkEpa (epa_path e) (epa_args e ++ l).
