(** * Specification of iteration orders *)

From Verif Require Import Bytes TableModel DirModel MainModel.

(** The same environment with other iteration orders of the hash maps of frequency and describe *)
Definition reordered (e : env) (freq_order : ftable -> ftable) (tag_order : tag_counts -> tag_counts) : env :=
  mkEnv (e_gz_enc e) (e_gz_dec e) (e_writable e) (e_dir_ok e) (e_oracles e) (e_hundredth e) (e_nf e) (e_sha e) (e_lossy e) (e_text e) (e_numeric e)
    (e_hash e) (e_esc e) (e_polars e) (e_frame e) freq_order (e_writer_order e) tag_order (e_rule_order e) (e_link_order e) (e_rules_order e)
    (e_int_f64 e) (e_strptime e) (e_is_nf e) (e_rules_toml e) (e_patterns e) (e_config_toml e) (e_home e).
