(** * NoTab: the same shell without completion (C79). *)
From Verif Require Import Shell Session.

(** USH_CONFIG_ENABLE_FEATURE_AUTOCOMPLETE switched off; nothing else changed. *)
Definition bare_cfg (c : config) : config :=
  mkConfig (cfg_styles c) false (cfg_commands c) (cfg_align c) (cfg_cols c) (cfg_help c) (cfg_ls c) (cfg_cd c) (cfg_pwd c)
    (cfg_cat c) (cfg_xxd c) (cfg_echo c) (cfg_error c) (cfg_msg c).
Definition bare_desc (d : desc) : desc := mkDesc (d_insize d) (d_outsize d) (d_pathmax d) (d_host d) (d_exec d) (bare_cfg (d_cfg d)).
Definition uncompleting (x : setting) : setting := mkSetting (bare_desc (x_desc x)) (x_app x).

(** Input, and events, without the TABs. *)
Definition no_tabs (cs : bytes) : bytes := filter (fun c => negb (ceq c TAB)) cs.
Definition tabs_unread (l : list event) : list event := filter (fun e => match e with EvIn c => negb (ceq c TAB) | _ => true end) l.

(** The application does not care how many TABs were read. *)
Definition deaf_to_tabs (x : setting) : Prop := forall h, x_app x h = x_app x (no_tabs h).

(** The two sessions stand alike, having read the same but for TABs. *)
Definition alike_but_tabs (a b : sess) : Prop :=
  se_world a = se_world b /\ no_tabs (se_read a) = no_tabs (se_read b) /\ se_esc a = se_esc b /\ se_line a = se_line b.
