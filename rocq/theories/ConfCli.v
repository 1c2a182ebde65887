(** * The integration tests of the commands: common definitions

    The files [ConfCli*.v] replay the tests in /repo/crates/pica-cli/tests on the
    program, from the command line on ([ArgsModel.v], [MainModel.v]).  The external
    functions are given by tables of what they do on the values of these tests; error
    messages and the test with the feature "compat" are left out.  The tests are
    evaluated when these files are compiled, the kernel sees the results only: they are
    tests, nothing is proved from them. *)

From Coq Require Import String ZArith.
From Verif Require Import Bytes Winnow RecordModel TagOccModel MatcherModel StateParser MatcherParserModel PathModel
  FmtModel QueryModel CliModel TableModel CheckModel OptionsModel PrepareModel IoModel DiskModel DirModel RuleModel
  ConfigModel MainModel ArgsModel ConfBase ConfQuery.

(** which values match the regular expressions, with and without regard to case *)
Definition re_table : list (bool * bytes * bytes) := [
  (false, lit ".*p$", lit "12.2p");
  (true, lit ".*p$", lit "12.2p");
  (false, lit ".*p$", lit "13.4p");
  (true, lit ".*p$", lit "13.4p");
  (false, lit ".*p$", lit "15.1p");
  (true, lit ".*p$", lit "15.1p");
  (false, lit ".*p$", lit "16.1p");
  (true, lit ".*p$", lit "16.1p");
  (false, lit ".*p$", lit "16.5p");
  (true, lit ".*p$", lit "16.5p");
  (false, lit ".*p$", lit "18p");
  (true, lit ".*p$", lit "18p");
  (false, lit ".*p$", lit "28p");
  (true, lit ".*p$", lit "28p");
  (false, lit ".*p$", lit "7.14p");
  (true, lit ".*p$", lit "7.14p");
  (false, lit ".*p$", lit "9.5p");
  (true, lit ".*p$", lit "9.5p");
  (true, lit ".*p$", lit "DE-Wi17FP");
  (false, lit ".*p$", lit "nasp");
  (true, lit ".*p$", lit "nasp");
  (false, lit ".*p$", lit "pip");
  (true, lit ".*p$", lit "pip");
  (false, lit ".*p$", lit "wip");
  (true, lit ".*p$", lit "wip");
  (false, lit "5p$", lit "16.5p");
  (true, lit "5p$", lit "16.5p");
  (false, lit "5p$", lit "9.5p");
  (true, lit "5p$", lit "9.5p");
  (false, lit "^T[bfg][1-3z]$", lit "Tb1");
  (true, lit "^T[bfg][1-3z]$", lit "Tb1");
  (false, lit "^T[bfg][1-3z]$", lit "Tg1");
  (true, lit "^T[bfg][1-3z]$", lit "Tg1");
  (false, lit "^T[bfg][1-3z]$", lit "Tgz");
  (true, lit "^T[bfg][1-3z]$", lit "Tgz");
  (false, lit "^T[bfgpsu][1-3z]$", lit "Tb1");
  (true, lit "^T[bfgpsu][1-3z]$", lit "Tb1");
  (false, lit "^T[bfgpsu][1-3z]$", lit "Tg1");
  (true, lit "^T[bfgpsu][1-3z]$", lit "Tg1");
  (false, lit "^T[bfgpsu][1-3z]$", lit "Tgz");
  (true, lit "^T[bfgpsu][1-3z]$", lit "Tgz");
  (false, lit "^T[bfgpsu][1-3z]$", lit "Tp1");
  (true, lit "^T[bfgpsu][1-3z]$", lit "Tp1");
  (false, lit "^T[bfgpsu][1-3z]$", lit "Tp2");
  (true, lit "^T[bfgpsu][1-3z]$", lit "Tp2");
  (false, lit "^T[bfgpsu][1-3z]$", lit "Tp3");
  (true, lit "^T[bfgpsu][1-3z]$", lit "Tp3");
  (false, lit "^T[bfgpsu][1-3z]$", lit "Tpz");
  (true, lit "^T[bfgpsu][1-3z]$", lit "Tpz");
  (false, lit "^T[bfgpsu][1-3z]$", lit "Ts1");
  (true, lit "^T[bfgpsu][1-3z]$", lit "Ts1");
  (false, lit "^T[bfgpsu][1-3z]$", lit "Tsz");
  (true, lit "^T[bfgpsu][1-3z]$", lit "Tsz");
  (false, lit "^T[bfgpsu][1-3z]$", lit "Tu1");
  (true, lit "^T[bfgpsu][1-3z]$", lit "Tu1");
  (false, lit "^T[bfgpsu][1-3z]$", lit "Tu3");
  (true, lit "^T[bfgpsu][1-3z]$", lit "Tu3");
  (false, lit "^T[bfgpsu][23z]$", lit "Tgz");
  (true, lit "^T[bfgpsu][23z]$", lit "Tgz");
  (false, lit "^T[bfgpsu][23z]$", lit "Tp2");
  (true, lit "^T[bfgpsu][23z]$", lit "Tp2");
  (false, lit "^T[bfgpsu][23z]$", lit "Tp3");
  (true, lit "^T[bfgpsu][23z]$", lit "Tp3");
  (false, lit "^T[bfgpsu][23z]$", lit "Tpz");
  (true, lit "^T[bfgpsu][23z]$", lit "Tpz");
  (false, lit "^T[bfgpsu][23z]$", lit "Tsz");
  (true, lit "^T[bfgpsu][23z]$", lit "Tsz");
  (false, lit "^T[bfgpsu][23z]$", lit "Tu3");
  (true, lit "^T[bfgpsu][23z]$", lit "Tu3");
  (false, lit "^Tp[1z]$", lit "Tp1");
  (true, lit "^Tp[1z]$", lit "Tp1");
  (false, lit "^Tp[1z]$", lit "Tpz");
  (true, lit "^Tp[1z]$", lit "Tpz");
  (false, lit "^Tp[23z]$", lit "Tp2");
  (true, lit "^Tp[23z]$", lit "Tp2");
  (false, lit "^Tp[23z]$", lit "Tp3");
  (true, lit "^Tp[23z]$", lit "Tp3");
  (false, lit "^Tp[23z]$", lit "Tpz");
  (true, lit "^Tp[23z]$", lit "Tpz");
  (false, lit "^[sz]$", lit "s");
  (true, lit "^[sz]$", lit "s");
  (false, lit "^[sz]$", lit "z");
  (true, lit "^[sz]$", lit "z");
  (true, lit "^tP[1Z]$", lit "Tp1");
  (true, lit "^tP[1Z]$", lit "Tpz");
  (true, lit "^t[BFGPSU][1-3Z]$", lit "Tb1");
  (true, lit "^t[BFGPSU][1-3Z]$", lit "Tg1");
  (true, lit "^t[BFGPSU][1-3Z]$", lit "Tgz");
  (true, lit "^t[BFGPSU][1-3Z]$", lit "Tp1");
  (true, lit "^t[BFGPSU][1-3Z]$", lit "Tp2");
  (true, lit "^t[BFGPSU][1-3Z]$", lit "Tp3");
  (true, lit "^t[BFGPSU][1-3Z]$", lit "Tpz");
  (true, lit "^t[BFGPSU][1-3Z]$", lit "Ts1");
  (true, lit "^t[BFGPSU][1-3Z]$", lit "Tsz");
  (true, lit "^t[BFGPSU][1-3Z]$", lit "Tu1");
  (true, lit "^t[BFGPSU][1-3Z]$", lit "Tu3");
  (true, lit "^t[BFG][1-3z]$", lit "Tb1");
  (true, lit "^t[BFG][1-3z]$", lit "Tg1");
  (true, lit "^t[BFG][1-3z]$", lit "Tgz");
  (false, lit "p$", lit "12.2p");
  (true, lit "p$", lit "12.2p");
  (false, lit "p$", lit "13.4p");
  (true, lit "p$", lit "13.4p");
  (false, lit "p$", lit "15.1p");
  (true, lit "p$", lit "15.1p");
  (false, lit "p$", lit "16.1p");
  (true, lit "p$", lit "16.1p");
  (false, lit "p$", lit "16.5p");
  (true, lit "p$", lit "16.5p");
  (false, lit "p$", lit "18p");
  (true, lit "p$", lit "18p");
  (false, lit "p$", lit "28p");
  (true, lit "p$", lit "28p");
  (false, lit "p$", lit "7.14p");
  (true, lit "p$", lit "7.14p");
  (false, lit "p$", lit "9.5p");
  (true, lit "p$", lit "9.5p");
  (true, lit "p$", lit "DE-Wi17FP");
  (false, lit "p$", lit "nasp");
  (true, lit "p$", lit "nasp");
  (false, lit "p$", lit "pip");
  (true, lit "p$", lit "pip");
  (false, lit "p$", lit "wip");
  (true, lit "p$", lit "wip")].
(** the normal forms of the values that are not normalized *)
Definition norm_table : list (norm_form * bytes * bytes) := [
  (Nfc, lit "Algèbre", lit "Algèbre");
  (Nfc, lit "Bearbeitungssperre (Top500) - Änderungswünsche an DNB", lit "Bearbeitungssperre (Top500) - Änderungswünsche an DNB");
  (Nfc, lit "GŚutih", lit "GŚutih");
  (Nfc, lit "Géte", lit "Géte");
  (Nfc, lit "Gêôt'ê", lit "Gêôt'ê");
  (Nfc, lit "Gête", lit "Gête");
  (Nfc, lit "Gêtê", lit "Gêtê");
  (Nfc, lit "Gēte", lit "Gēte");
  (Nfc, lit "Gėtė", lit "Gėtė");
  (Nfc, lit "Gëte", lit "Gëte");
  (Nfc, lit "Gě'ṭe", lit "Gě'ṭe");
  (Nfc, lit "Giochan Bolphnkannk êphonë", lit "Giochan Bolphnkannk êphonë");
  (Nfc, lit "Gǐote", lit "Gǐote");
  (Nfc, lit "Goytä", lit "Goytä");
  (Nfc, lit "Gót", lit "Gót");
  (Nfc, lit "Göte", lit "Göte");
  (Nfc, lit "Göthe", lit "Göthe");
  (Nfc, lit "Gūta", lit "Gūta");
  (Nfc, lit "Ġūta", lit "Ġūta");
  (Nfc, lit "Ġūtah", lit "Ġūtah");
  (Nfc, lit "Ġūtih", lit "Ġūtih");
  (Nfc, lit "Ǧīta", lit "Ǧīta");
  (Nfc, lit "Ǧītah", lit "Ǧītah");
  (Nfc, lit "Ǧītā", lit "Ǧītā");
  (Nfc, lit "Ǧītih", lit "Ǧītih");
  (Nfc, lit "Ǧūta", lit "Ǧūta");
  (Nfc, lit "Hëte", lit "Hëte");
  (Nfc, lit "Höhere Algebra", lit "Höhere Algebra");
  (Nfc, lit "Höte", lit "Höte");
  (Nfc, lit "Iōann Mpolphgang", lit "Iōann Mpolphgang");
  (Nfc, lit "João Wolfgang", lit "João Wolfgang");
  (Nfc, lit "Jogann Vol'fgang êfonë", lit "Jogann Vol'fgang êfonë");
  (Nfc, lit "Johann W. êvonë", lit "Johann W. êvonë");
  (Nfc, lit "Johān Bholphgãā", lit "Johān Bholphgãā");
  (Nfc, lit "Jōhan Wolfgang", lit "Jōhan Wolfgang");
  (Nfc, lit "Kêôt'ê", lit "Kêôt'ê");
  (Nfc, lit "Kēōthē", lit "Kēōthē");
  (Nfc, lit "Laut dem Buch '""Nachtwachen"" von Bonaventura alias J. W. v. Goethe' von Lothar Baus ist Goethe möglicher Verf. der ""Nachtwachen"".", lit "Laut dem Buch '""Nachtwachen"" von Bonaventura alias J. W. v. Goethe' von Lothar Baus ist Goethe möglicher Verf. der ""Nachtwachen"".");
  (Nfc, lit "MACS-Mapping. Bitte keine Änderungen vornehmen.", lit "MACS-Mapping. Bitte keine Änderungen vornehmen.");
  (Nfc, lit "YŚuhŚan VŚulf·gan·g fŚun", lit "YŚuhŚan VŚulf·gan·g fŚun");
  (Nfc, lit "Yohan Polp'ŭgang", lit "Yohan Polp'ŭgang");
  (Nfc, lit "Yohan Ṿolfgang", lit "Yohan Ṿolfgang");
  (Nfc, lit "Yôhan Wolfgang", lit "Yôhan Wolfgang");
  (Nfc, lit "Yôhân Wôlfgang", lit "Yôhân Wôlfgang");
  (Nfc, lit "Yūhān Fūlfġānḡ", lit "Yūhān Fūlfġānḡ");
  (Nfc, lit "Yūhān Fūlfġānġ fūn", lit "Yūhān Fūlfġānġ fūn");
  (Nfc, lit "Yūhān Vūlfġanġ", lit "Yūhān Vūlfġanġ");
  (Nfc, lit "Yūhān Wulfgāng", lit "Yūhān Wulfgāng");
  (Nfc, lit "Yūhān Wulfǧānǧ", lit "Yūhān Wulfǧānǧ");
  (Nfc, lit "fôn", lit "fôn");
  (Nfc, lit "fūn", lit "fūn");
  (Nfc, lit "ohne Unterscheidung für die Disziplin der Mathematik und die Algebraische Struktur", lit "ohne Unterscheidung für die Disziplin der Mathematik und die Algebraische Struktur");
  (Nfc, lit "Гёте", lit "Гёте");
  (Nfc, lit "Йоҳанн Волфганг", lit "Йоҳанн Волфганг");
  (Nfc, lit "괴테", lit "괴테");
  (Nfc, lit "요한 볼프강 폰", lit "요한 볼프강 폰");
  (Nfc, lit "ゲーテ", lit "ゲーテ");
  (Nfc, lit "ヨハン・ヴォルフガング・フォン", lit "ヨハン・ヴォルフガング・フォン");
  (Nfd, ([10] ++ lit "            [rule.R001]" ++ [10] ++ lit "            check = ""filter""" ++ [10] ++ lit "            filter = '028@.P == ""Göthe""'" ++ [10] ++ lit "        "), ([10] ++ lit "            [rule.R001]" ++ [10] ++ lit "            check = ""filter""" ++ [10] ++ lit "            filter = '028@.P == ""Göthe""'" ++ [10] ++ lit "        "));
  (Nfkc, lit "Algèbre", lit "Algèbre");
  (Nfkc, lit "Bearbeitungssperre (Top500) - Änderungswünsche an DNB", lit "Bearbeitungssperre (Top500) - Änderungswünsche an DNB");
  (Nfkc, lit "GŚutih", lit "GŚutih");
  (Nfkc, lit "Géte", lit "Géte");
  (Nfkc, lit "Gêôt'ê", lit "Gêôt'ê");
  (Nfkc, lit "Gête", lit "Gête");
  (Nfkc, lit "Gêtê", lit "Gêtê");
  (Nfkc, lit "Gēte", lit "Gēte");
  (Nfkc, lit "Gėtė", lit "Gėtė");
  (Nfkc, lit "Gëte", lit "Gëte");
  (Nfkc, lit "Gě'ṭe", lit "Gě'ṭe");
  (Nfkc, lit "Giochan Bolphnkannk êphonë", lit "Giochan Bolphnkannk êphonë");
  (Nfkc, lit "Gǐote", lit "Gǐote");
  (Nfkc, lit "Goytä", lit "Goytä");
  (Nfkc, lit "Gót", lit "Gót");
  (Nfkc, lit "Göte", lit "Göte");
  (Nfkc, lit "Göthe", lit "Göthe");
  (Nfkc, lit "Gūta", lit "Gūta");
  (Nfkc, lit "Ġūta", lit "Ġūta");
  (Nfkc, lit "Ġūtah", lit "Ġūtah");
  (Nfkc, lit "Ġūtih", lit "Ġūtih");
  (Nfkc, lit "Ǧīta", lit "Ǧīta");
  (Nfkc, lit "Ǧītah", lit "Ǧītah");
  (Nfkc, lit "Ǧītā", lit "Ǧītā");
  (Nfkc, lit "Ǧītih", lit "Ǧītih");
  (Nfkc, lit "Ǧūta", lit "Ǧūta");
  (Nfkc, lit "Hëte", lit "Hëte");
  (Nfkc, lit "Höhere Algebra", lit "Höhere Algebra");
  (Nfkc, lit "Höte", lit "Höte");
  (Nfkc, lit "Iōann Mpolphgang", lit "Iōann Mpolphgang");
  (Nfkc, lit "João Wolfgang", lit "João Wolfgang");
  (Nfkc, lit "Jogann Vol'fgang êfonë", lit "Jogann Vol'fgang êfonë");
  (Nfkc, lit "Johann W. êvonë", lit "Johann W. êvonë");
  (Nfkc, lit "Johān Bholphgãā", lit "Johān Bholphgãā");
  (Nfkc, lit "Jōhan Wolfgang", lit "Jōhan Wolfgang");
  (Nfkc, lit "Kêôt'ê", lit "Kêôt'ê");
  (Nfkc, lit "Kēōthē", lit "Kēōthē");
  (Nfkc, lit "Laut dem Buch '""Nachtwachen"" von Bonaventura alias J. W. v. Goethe' von Lothar Baus ist Goethe möglicher Verf. der ""Nachtwachen"".", lit "Laut dem Buch '""Nachtwachen"" von Bonaventura alias J. W. v. Goethe' von Lothar Baus ist Goethe möglicher Verf. der ""Nachtwachen"".");
  (Nfkc, lit "MACS-Mapping. Bitte keine Änderungen vornehmen.", lit "MACS-Mapping. Bitte keine Änderungen vornehmen.");
  (Nfkc, lit "YŚuhŚan VŚulf·gan·g fŚun", lit "YŚuhŚan VŚulf·gan·g fŚun");
  (Nfkc, lit "Yohan Polp'ŭgang", lit "Yohan Polp'ŭgang");
  (Nfkc, lit "Yohan Ṿolfgang", lit "Yohan Ṿolfgang");
  (Nfkc, lit "Yôhan Wolfgang", lit "Yôhan Wolfgang");
  (Nfkc, lit "Yôhân Wôlfgang", lit "Yôhân Wôlfgang");
  (Nfkc, lit "Yūhān Fūlfġānḡ", lit "Yūhān Fūlfġānḡ");
  (Nfkc, lit "Yūhān Fūlfġānġ fūn", lit "Yūhān Fūlfġānġ fūn");
  (Nfkc, lit "Yūhān Vūlfġanġ", lit "Yūhān Vūlfġanġ");
  (Nfkc, lit "Yūhān Wulfgāng", lit "Yūhān Wulfgāng");
  (Nfkc, lit "Yūhān Wulfǧānǧ", lit "Yūhān Wulfǧānǧ");
  (Nfkc, lit "fôn", lit "fôn");
  (Nfkc, lit "fūn", lit "fūn");
  (Nfkc, lit "ohne Unterscheidung für die Disziplin der Mathematik und die Algebraische Struktur", lit "ohne Unterscheidung für die Disziplin der Mathematik und die Algebraische Struktur");
  (Nfkc, lit "Гёте", lit "Гёте");
  (Nfkc, lit "Йоҳанн Волфганг", lit "Йоҳанн Волфганг");
  (Nfkc, lit "괴테", lit "괴테");
  (Nfkc, lit "요한 볼프강 폰", lit "요한 볼프강 폰");
  (Nfkc, lit "ゲーテ", lit "ゲーテ");
  (Nfkc, lit "ヨハン・ヴォルフガング・フォン", lit "ヨハン・ヴォルフガング・フォン");
  (Nfkd, ([10] ++ lit "            [rule.R001]" ++ [10] ++ lit "            check = ""filter""" ++ [10] ++ lit "            filter = '028@.P == ""Göthe""'" ++ [10] ++ lit "        "), ([10] ++ lit "            [rule.R001]" ++ [10] ++ lit "            check = ""filter""" ++ [10] ++ lit "            filter = '028@.P == ""Göthe""'" ++ [10] ++ lit "        "))].
(** values that are not in a normal form *)
Definition not_nf_table : list (norm_form * bytes) := [
  (Nfc, lit "ä");
  (Nfkc, lit "ä");
  (Nfd, lit "ä");
  (Nfkd, lit "ä")].
(** dates in a format *)
Definition date_table : list (bytes * bytes) := [
  (lit "%y-%m-%d", lit "24-02-29");
  (lit "%Y-%m-%d", lit "2024-02-29")].
(** the names of rules an expression matches *)
Definition pattern_table : list (bytes * bytes) := [
  (lit "R002", lit "R002");
  (lit "^R0\d+", lit "R001");
  (lit "^R0\d+", lit "R002");
  (lit "^R0\d+", lit "R003");
  (lit "^R0\d+", lit "R01");
  (lit "^R0\d+", lit "R011")].

Definition assoc {A} (k : bytes) (l : list (bytes * A)) : option A :=
  option_map snd (find (fun x => bytes_eqb (fst x) k) l).
Definition pair_in (x y : bytes) (l : list (bytes * bytes)) : bool :=
  existsb (fun p => bytes_eqb (fst p) x && bytes_eqb (snd p) y) l.
Definition form_eqb (a b : norm_form) : bool := bytes_eqb (nf_display a) (nf_display b).

(** the external functions, for a similarity threshold in percent *)
Definition cO (percent : N) : oracles :=
  mkOracles ascii_lower (similar percent) (fun _ _ => true) (fun _ _ => true)
    (fun ci re v => existsb (fun x => Bool.eqb (fst (fst x)) ci && bytes_eqb (snd (fst x)) re && bytes_eqb (snd x) v) re_table).
(** similarity thresholds in percent and as floating-point numbers *)
Definition threshold_table : list (N * N) := [
  (60, 4603579539098121011);
  (75, 4604930618986332160);
  (80, 4605380978949069210);
  (90, 4606281698874543309)].
Definition hundredth (percent : N) : N :=
  match find (fun x => fst x =? percent) threshold_table with Some x => snd x | None => 0 end.
Definition cO_at (x : N) : oracles :=
  match find (fun y => snd y =? x) threshold_table with Some y => cO (fst y) | None => cO 80 end.
Definition cT : text_fns := qT.
Definition same {A} (x : A) : A := x.
Definition any_name (n : bytes) : bool := true.
Definition norm (f : norm_form) (b : bytes) : bytes :=
  match find (fun x => form_eqb (fst (fst x)) f && bytes_eqb (snd (fst x)) b) norm_table with
  | Some x => snd x
  | None => b
  end.
Definition is_nf (f : norm_form) (b : bytes) : bool :=
  negb (existsb (fun x => form_eqb (fst x) f && bytes_eqb (snd x) b) not_nf_table).
Definition strptime (format value : bytes) : bool := pair_in format value date_table.
Definition patterns (l : list bytes) : option (bytes -> bool) :=
  Some (fun name => existsb (fun re => pair_in re name pattern_table) l).
Definition int_f64 (z : Z) : N := 0.
Definition numeric (b : bytes) : bool := match b with [] => false | _ => forallb is_digit b end.
(** an injective function in place of the hash of a row *)
Definition row_hash (row : list bytes) : N :=
  fold_left (fun n c => n * 257 + c + 1) (flat_map (fun x => x ++ [256]) row) 0.
Definition xml_esc (b : bytes) : bytes :=
  flat_map (fun c => if c =? 38 then lit "&amp;" else if c =? 60 then lit "&lt;" else if c =? 62 then lit "&gt;"
                     else if c =? 34 then lit "&quot;" else if c =? 39 then lit "&apos;" else [c]) b.
(** compression keeps the text behind the two bytes a gzip file begins with *)
Definition gz_enc (b : bytes) : bytes := 31 :: 139 :: b.
Definition gz_dec (b : bytes) : list piece :=
  match b with 31 :: 139 :: b' => whole b' | _ => [PError OtherKind] end.
(** the CSV writer of polars *)
Definition frame_text (f : frame_format) (t : list N * list (bytes * list N)) : bytes :=
  let line sep cells := match cells with [] => [10] | c :: cs => c ++ flat_map (fun x => sep :: x) cs ++ [10] end in
  let text sep := line sep (lit "field" :: map (fun c => [c]) (fst t))
                  ++ flat_map (fun r => line sep (fst r :: map dec (snd r))) (snd t) in
  match f with FCsv => text 44 | FTsv => text 9 | _ => lit "table" end.
(** the toml crate on configurations as the program writes them *)
Definition configs : list config :=
  flat_map (fun s => map (mkConfig s) [None; Some Nfc; Some Nfkc; Some Nfd; Some Nfkd]) [false; true].
Definition read_config (b : bytes) : option config := find (fun c => bytes_eqb (config_toml c) b) configs.

(** ** The program *)

(** the environment of a test: what polars and the toml crate read in its files *)
Definition test_env (lists : list (bytes * table)) (docs : list (bytes * toml)) : env :=
  mkEnv gz_enc gz_dec any_name any_name cO_at hundredth norm sha256 same cT numeric row_hash xml_esc
    (fun _ b => assoc b lists) frame_text same same same same same same int_f64 strptime is_nf
    (fun b => assoc b docs) patterns read_config (Some (lit "home/pica-rs/Pica.toml")).
(** With the seed 1234 these two draws are the last below the size, by the expected
    output. *)
Definition draws (seed : option N) (c : N) : N :=
  match seed with
  | Some _ => if c =? 5 then 0 else if c =? 6 then 1 else c - 1
  | None => c - 1
  end.
Definition pica (lists : list (bytes * table)) (docs : list (bytes * toml)) : list bytes -> world -> option (command_end * world) :=
  program (test_env lists docs) draws (fun _ => lit "Usage") (lit "pica") (fun shell => lit "# " ++ shell).

(** ** Steps of a test *)

Definition step : Type := world -> option world.

Definition has_status (e : command_end) (status : option N) : bool :=
  match e, status with
  | CRefused, Some n => n =? 2
  | CEnded m, Some n => m =? n
  | CRefused, None => true
  | CEnded m, None => negb (m =? 0)
  | CPanicked, _ => false
  end.

(** a command line, its standard input, its exit status ([None]: any failure) and
    what it must write to the standard output *)
Definition run (main : list bytes -> world -> option (command_end * world)) (line : list bytes)
  (stdin : bytes) (status : option N) (out : bytes -> bool) : step :=
  fun w =>
    match main line (mkWorld (w_disk w) stdin []) with
    | Some (e, w') => if has_status e status && out (w_stdout w') then Some w' else None
    | None => None
    end.
Definition write (n b : bytes) : step := fun w => Some (with_disk w (disk_set (w_disk w) n b)).
Definition file_with (n : bytes) (p : bytes -> bool) : step :=
  fun w => match disk_get (w_disk w) n with Some b => if p b then Some w else None | None => None end.
Definition file_is (n b : bytes) : step := file_with n (bytes_eqb b).
Definition file_there (n : bytes) : step := file_with n (fun _ => true).
Definition file_absent (n : bytes) : step :=
  fun w => match disk_get (w_disk w) n with Some _ => None | None => Some w end.
Definition nonempty (b : bytes) : bool := match b with [] => false | _ => true end.
Fixpoint prefix_of (p b : bytes) : bool :=
  match p, b with
  | [], _ => true
  | x :: p', y :: b' => (x =? y) && prefix_of p' b'
  | _, _ => false
  end.
Fixpoint contains (p b : bytes) : bool :=
  prefix_of p b || match b with [] => false | _ :: b' => contains p b' end.
(** the number of files in a directory, given with the slash at its end *)
Definition dir_has (dir : bytes) (n : N) : step :=
  fun w => if N.of_nat (length (filter (fun x => prefix_of dir (fst x)) (w_disk w))) =? n then Some w else None.

Fixpoint play (steps : list step) (w : world) : bool :=
  match steps with
  | [] => true
  | s :: steps' => match s w with Some w' => play steps' w' | None => false end
  end.
(** the test succeeds on a disk with these files *)
Definition plays (files : disk) (steps : list step) : bool := play steps (mkWorld files [] []).
