(** * Integration tests of hash

    /repo/crates/pica-cli/tests/hash, see [ConfCli.v]. *)

From Coq Require Import String ZArith.
From Verif Require Import Bytes Winnow RecordModel TagOccModel MatcherModel StateParser PathModel CliModel TableModel
  CheckModel RuleModel
  ConfBase ConfData ConfDump ConfCli.

(** /repo/crates/pica-cli/tests/hash/mod.rs:21-36 *)
Definition hash_hash_single_record_run : bool := Eval vm_compute in
  (
    let main := pica [] [] in
    plays [(lit "ada.dat", ada)]
    [run main [lit "hash"; lit "ada.dat"]
      [] (Some 0) (bytes_eqb (lit "ppn,hash" ++ [10] ++ lit "119232022,0ff4c124bb89f27fb73549840654a0c0b6cb7b4d66dc6a20a57a4d49895d62ca" ++ [10]))]).
Example hash_hash_single_record : hash_hash_single_record_run = true.
Proof. reflexivity. Qed.

(** /repo/crates/pica-cli/tests/hash/mod.rs:39-53 *)
Definition hash_hash_dump_run : bool := Eval vm_compute in
  (
    let main := pica [] [] in
    plays [(lit "DUMP.dat.gz", gz_enc dump)]
    [run main [lit "hash"; lit "-s"; lit "DUMP.dat.gz"]
      [] (Some 0) (bytes_eqb (lit "ppn,hash" ++ [10] ++ lit "118540238,762cf3a1b18a0cad2d0401cd2b573a89ff9c81b43c4ddab76e136d7a10a851f3" ++ [10] ++ lit "118607626,8d75e2cdfec20aa025d36018a40b150363d79571788cd92e7ff568595ba4f9ee" ++ [10] ++ lit "040993396,0361c33e1f7a80e21eecde747b2721b7884e003ac4deb8c271684ec0dc4d059a" ++ [10] ++ lit "04099337X,9ea44b7968a3668f12796b33f39abf45abbdd253eede0b5232049c3dcc5b3049" ++ [10] ++ lit "040991970,85998d025a6076a57441c56a4b8a64877b0a7c47fb4d93825270942704716b70" ++ [10] ++ lit "040991989,564b08a820bcbc4457643969db4ad99dd1701e7185f4cd4df6b8928a2bbb2360" ++ [10] ++ lit "041274377,0a578e4da5e5a6cc49776975d4d4ee877fe8e3a667be0e12f87dc47a7aa91a85" ++ [10] ++ lit "964262134,78d7d3b83e5bdec16ff79de2b431c94a53ef8abfaa3db2f48ba95fde39728594" ++ [10] ++ lit "040533093,ab4d24140c1d2440b00d93fca735db0a3f17a6734eefdaad559c2ed06a8c0d21" ++ [10] ++ lit "040309606,f8876d13cd12cc587451b138d196956f3221a366c8960114a32b2ab52b5fd5ef" ++ [10] ++ lit "040128997,aee29a116fc8a6b6c85530682ef7ce254f43f45f06e85a9275bfac8b25f2eaf4" ++ [10] ++ lit "040651053,036503450bbe80fc1b08d845b7106c18e78b282e6a834bb88675fcf25aa4fd56" ++ [10]))]).
Example hash_hash_dump : hash_hash_dump_run = true.
Proof. reflexivity. Qed.

(** /repo/crates/pica-cli/tests/hash/mod.rs:56-73 *)
Definition hash_hash_tsv_run : bool := Eval vm_compute in
  (
    let main := pica [] [] in
    plays [(lit "ada.dat", ada)]
    [run main [lit "hash"; lit "--tsv"; lit "ada.dat"]
      [] (Some 0) (bytes_eqb (lit "ppn" ++ [9] ++ lit "hash" ++ [10] ++ lit "119232022" ++ [9] ++ lit "0ff4c124bb89f27fb73549840654a0c0b6cb7b4d66dc6a20a57a4d49895d62ca" ++ [10]))]).
Example hash_hash_tsv : hash_hash_tsv_run = true.
Proof. reflexivity. Qed.

(** /repo/crates/pica-cli/tests/hash/mod.rs:76-102 *)
Definition hash_hash_skip_invalid_run : bool := Eval vm_compute in
  (
    let main := pica [] [] in
    plays [(lit "invalid.dat", invalid_dat)]
    [run main [lit "hash"; lit "-s"; lit "invalid.dat"]
      [] (Some 0) (bytes_eqb (lit "ppn,hash" ++ [10]));
     run main [lit "hash"; lit "invalid.dat"]
      [] (Some 2) (bytes_eqb (lit "ppn,hash" ++ [10]))]).
Example hash_hash_skip_invalid : hash_hash_skip_invalid_run = true.
Proof. reflexivity. Qed.

(** /repo/crates/pica-cli/tests/hash/mod.rs:105-123 *)
Definition hash_hash_header_run : bool := Eval vm_compute in
  (
    let main := pica [] [] in
    plays [(lit "ada.dat", ada)]
    [run main [lit "hash"; lit "--header"; lit "idn,sha256"; lit "ada.dat"]
      [] (Some 0) (bytes_eqb (lit "idn,sha256" ++ [10] ++ lit "119232022,0ff4c124bb89f27fb73549840654a0c0b6cb7b4d66dc6a20a57a4d49895d62ca" ++ [10]))]).
Example hash_hash_header : hash_hash_header_run = true.
Proof. reflexivity. Qed.

(** /repo/crates/pica-cli/tests/hash/mod.rs:126-141 *)
Definition hash_hash_where_run : bool := Eval vm_compute in
  (
    let main := pica [] [] in
    plays [(lit "DUMP.dat.gz", gz_enc dump)]
    [run main [lit "hash"; lit "-s"; lit "DUMP.dat.gz"; lit "--where"; lit "003@.0 == '040991970'"]
      [] (Some 0) (bytes_eqb (lit "ppn,hash" ++ [10] ++ lit "040991970,85998d025a6076a57441c56a4b8a64877b0a7c47fb4d93825270942704716b70" ++ [10]))]).
Example hash_hash_where : hash_hash_where_run = true.
Proof. reflexivity. Qed.

(** /repo/crates/pica-cli/tests/hash/mod.rs:144-160 *)
Definition hash_hash_where_and_run : bool := Eval vm_compute in
  (
    let main := pica [] [] in
    plays [(lit "DUMP.dat.gz", gz_enc dump)]
    [run main [lit "hash"; lit "-s"; lit "DUMP.dat.gz"; lit "--where"; lit "003@.0 == '040991970'"; lit "--and"; lit "002@.0 == 'Tu1'"]
      [] (Some 0) (bytes_eqb (lit "ppn,hash" ++ [10] ++ lit "040991970,85998d025a6076a57441c56a4b8a64877b0a7c47fb4d93825270942704716b70" ++ [10]))]).
Example hash_hash_where_and : hash_hash_where_and_run = true.
Proof. reflexivity. Qed.

(** /repo/crates/pica-cli/tests/hash/mod.rs:163-181 *)
Definition hash_hash_where_or_run : bool := Eval vm_compute in
  (
    let main := pica [] [] in
    plays [(lit "DUMP.dat.gz", gz_enc dump)]
    [run main [lit "hash"; lit "-s"; lit "DUMP.dat.gz"; lit "--where"; lit "003@.0 == '118540238'"; lit "--or"; lit "003@.0 == '118607626'"]
      [] (Some 0) (bytes_eqb (lit "ppn,hash" ++ [10] ++ lit "118540238,762cf3a1b18a0cad2d0401cd2b573a89ff9c81b43c4ddab76e136d7a10a851f3" ++ [10] ++ lit "118607626,8d75e2cdfec20aa025d36018a40b150363d79571788cd92e7ff568595ba4f9ee" ++ [10]))]).
Example hash_hash_where_or : hash_hash_where_or_run = true.
Proof. reflexivity. Qed.

(** /repo/crates/pica-cli/tests/hash/mod.rs:184-200 *)
Definition hash_hash_where_not_run : bool := Eval vm_compute in
  (
    let main := pica [] [] in
    plays [(lit "DUMP.dat.gz", gz_enc dump)]
    [run main [lit "hash"; lit "-s"; lit "DUMP.dat.gz"; lit "--where"; lit "002@.0 =^ 'Tp'"; lit "--not"; lit "003@.0 == '118607626'"]
      [] (Some 0) (bytes_eqb (lit "ppn,hash" ++ [10] ++ lit "118540238,762cf3a1b18a0cad2d0401cd2b573a89ff9c81b43c4ddab76e136d7a10a851f3" ++ [10]))]).
Example hash_hash_where_not : hash_hash_where_not_run = true.
Proof. reflexivity. Qed.

(** /repo/crates/pica-cli/tests/hash/mod.rs:203-219 *)
Definition hash_hash_limit_run : bool := Eval vm_compute in
  (
    let main := pica [] [] in
    plays [(lit "DUMP.dat.gz", gz_enc dump)]
    [run main [lit "hash"; lit "-s"; lit "-l"; lit "2"; lit "DUMP.dat.gz"]
      [] (Some 0) (bytes_eqb (lit "ppn,hash" ++ [10] ++ lit "118540238,762cf3a1b18a0cad2d0401cd2b573a89ff9c81b43c4ddab76e136d7a10a851f3" ++ [10] ++ lit "118607626,8d75e2cdfec20aa025d36018a40b150363d79571788cd92e7ff568595ba4f9ee" ++ [10]))]).
Example hash_hash_limit : hash_hash_limit_run = true.
Proof. reflexivity. Qed.

(** /repo/crates/pica-cli/tests/hash/mod.rs:222-244 *)
Definition hash_hash_allow_run : bool := Eval vm_compute in
  (
    let lists := [((lit "ppn" ++ [10] ++ lit "118540238" ++ [10] ++ lit "118607626" ++ [10]), [(lit "ppn", [Some (lit "118540238"); Some (lit "118607626")])])] in
    let main := pica lists [] in
    plays [(lit "DUMP.dat.gz", gz_enc dump)]
    [write (lit "d1/ALLOW.csv") (lit "ppn" ++ [10] ++ lit "118540238" ++ [10] ++ lit "118607626" ++ [10]);
     run main [lit "hash"; lit "-s"; lit "-A"; lit "d1/ALLOW.csv"; lit "DUMP.dat.gz"]
      [] (Some 0) (bytes_eqb (lit "ppn,hash" ++ [10] ++ lit "118540238,762cf3a1b18a0cad2d0401cd2b573a89ff9c81b43c4ddab76e136d7a10a851f3" ++ [10] ++ lit "118607626,8d75e2cdfec20aa025d36018a40b150363d79571788cd92e7ff568595ba4f9ee" ++ [10]))]).
Example hash_hash_allow : hash_hash_allow_run = true.
Proof. reflexivity. Qed.

(** /repo/crates/pica-cli/tests/hash/mod.rs:247-277 *)
Definition hash_hash_deny_run : bool := Eval vm_compute in
  (
    let lists := [((lit "ppn" ++ [10] ++ lit "118540238" ++ [10] ++ lit "118607626" ++ [10]), [(lit "ppn", [Some (lit "118540238"); Some (lit "118607626")])])] in
    let main := pica lists [] in
    plays [(lit "DUMP.dat.gz", gz_enc dump)]
    [write (lit "d1/DENY.csv") (lit "ppn" ++ [10] ++ lit "118540238" ++ [10] ++ lit "118607626" ++ [10]);
     run main [lit "hash"; lit "-s"; lit "-D"; lit "d1/DENY.csv"; lit "DUMP.dat.gz"]
      [] (Some 0) (bytes_eqb (lit "ppn,hash" ++ [10] ++ lit "040993396,0361c33e1f7a80e21eecde747b2721b7884e003ac4deb8c271684ec0dc4d059a" ++ [10] ++ lit "04099337X,9ea44b7968a3668f12796b33f39abf45abbdd253eede0b5232049c3dcc5b3049" ++ [10] ++ lit "040991970,85998d025a6076a57441c56a4b8a64877b0a7c47fb4d93825270942704716b70" ++ [10] ++ lit "040991989,564b08a820bcbc4457643969db4ad99dd1701e7185f4cd4df6b8928a2bbb2360" ++ [10] ++ lit "041274377,0a578e4da5e5a6cc49776975d4d4ee877fe8e3a667be0e12f87dc47a7aa91a85" ++ [10] ++ lit "964262134,78d7d3b83e5bdec16ff79de2b431c94a53ef8abfaa3db2f48ba95fde39728594" ++ [10] ++ lit "040533093,ab4d24140c1d2440b00d93fca735db0a3f17a6734eefdaad559c2ed06a8c0d21" ++ [10] ++ lit "040309606,f8876d13cd12cc587451b138d196956f3221a366c8960114a32b2ab52b5fd5ef" ++ [10] ++ lit "040128997,aee29a116fc8a6b6c85530682ef7ce254f43f45f06e85a9275bfac8b25f2eaf4" ++ [10] ++ lit "040651053,036503450bbe80fc1b08d845b7106c18e78b282e6a834bb88675fcf25aa4fd56" ++ [10]))]).
Example hash_hash_deny : hash_hash_deny_run = true.
Proof. reflexivity. Qed.

(** /repo/crates/pica-cli/tests/hash/mod.rs:280-303 *)
Definition hash_hash_filter_set_column_run : bool := Eval vm_compute in
  (
    let lists := [((lit "id" ++ [10] ++ lit "118540238" ++ [10] ++ lit "118607626" ++ [10]), [(lit "id", [Some (lit "118540238"); Some (lit "118607626")])])] in
    let main := pica lists [] in
    plays [(lit "DUMP.dat.gz", gz_enc dump)]
    [write (lit "d1/ALLOW.csv") (lit "id" ++ [10] ++ lit "118540238" ++ [10] ++ lit "118607626" ++ [10]);
     run main [lit "hash"; lit "-s"; lit "-A"; lit "d1/ALLOW.csv"; lit "--filter-set-column"; lit "id"; lit "DUMP.dat.gz"]
      [] (Some 0) (bytes_eqb (lit "ppn,hash" ++ [10] ++ lit "118540238,762cf3a1b18a0cad2d0401cd2b573a89ff9c81b43c4ddab76e136d7a10a851f3" ++ [10] ++ lit "118607626,8d75e2cdfec20aa025d36018a40b150363d79571788cd92e7ff568595ba4f9ee" ++ [10]))]).
Example hash_hash_filter_set_column : hash_hash_filter_set_column_run = true.
Proof. reflexivity. Qed.

(** /repo/crates/pica-cli/tests/hash/mod.rs:306-330 *)
Definition hash_hash_filter_set_source_run : bool := Eval vm_compute in
  (
    let lists := [((lit "bbg" ++ [10] ++ lit "Tpz" ++ [10] ++ lit "Tp1" ++ [10]), [(lit "bbg", [Some (lit "Tpz"); Some (lit "Tp1")])])] in
    let main := pica lists [] in
    plays [(lit "DUMP.dat.gz", gz_enc dump)]
    [write (lit "d1/ALLOW.csv") (lit "bbg" ++ [10] ++ lit "Tpz" ++ [10] ++ lit "Tp1" ++ [10]);
     run main [lit "hash"; lit "-s"; lit "-A"; lit "d1/ALLOW.csv"; lit "--filter-set-source"; lit "002@.0"; lit "--filter-set-column"; lit "bbg"; lit "DUMP.dat.gz"]
      [] (Some 0) (bytes_eqb (lit "ppn,hash" ++ [10] ++ lit "118540238,762cf3a1b18a0cad2d0401cd2b573a89ff9c81b43c4ddab76e136d7a10a851f3" ++ [10] ++ lit "118607626,8d75e2cdfec20aa025d36018a40b150363d79571788cd92e7ff568595ba4f9ee" ++ [10]))]).
Example hash_hash_filter_set_source : hash_hash_filter_set_source_run = true.
Proof. reflexivity. Qed.
