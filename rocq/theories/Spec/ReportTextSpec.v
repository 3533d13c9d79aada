(** The entries named in the report of a failed merge: of [alias], [env] and [target] (C63). *)
From Verif.Model Require Import Base Error De Debug.

Inductive entry :=
| OfAlias (x : string_list)
| OfEnv (x : env_config_value)
| OfTarget (x : target_config).
Definition entry_view (e : entry) : dbg :=
  match e with
  | OfAlias x => dbg_string_list x
  | OfEnv x => dbg_env_config_value x
  | OfTarget x => dbg_target x
  end.
