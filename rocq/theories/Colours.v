(** * Colours: the same shell with and without colours (C78). *)
From Verif Require Import Shell Session.

(** USH_CONFIG_ENABLE_FEATURE_SHELL_STYLES switched off; nothing else changed. *)
Definition plain_cfg (c : config) : config :=
  mkConfig false (cfg_autocomp c) (cfg_commands c) (cfg_align c) (cfg_cols c) (cfg_help c) (cfg_ls c) (cfg_cd c) (cfg_pwd c)
    (cfg_cat c) (cfg_xxd c) (cfg_echo c) (cfg_error c) (cfg_msg c).
Definition plain_desc (d : desc) : desc := mkDesc (d_insize d) (d_outsize d) (d_pathmax d) (d_host d) (d_exec d) (plain_cfg (d_cfg d)).
Definition uncoloured (x : setting) : setting := mkSetting (plain_desc (x_desc x)) (x_app x).

(** Reset, green, yellow, magenta. *)
Definition colour_codes : list bytes := [ESC :: lit "[0m"; ESC :: lit "[32m"; ESC :: lit "[33m"; ESC :: lit "[35m"].

(** [l] is [m] with colour codes printed here and there. *)
Inductive decorated : list event -> list event -> Prop :=
| dec_nil : decorated [] []
| dec_same : forall e l m, decorated l m -> decorated (e :: l) (e :: m)
| dec_code : forall t l m, In t colour_codes -> decorated l m -> decorated (map EvOut t ++ l) m.
