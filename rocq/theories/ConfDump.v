(** * The compressed data files of the tests of the project (/repo/tests/data), decompressed *)

From Coq Require Import String.
From Verif Require Import Bytes.

(** /repo/tests/data/math.dat.gz, decompressed *)
Definition math : bytes :=
  (lit "001A " ++ [31] ++ lit "01250:01-07-88" ++ [30])
  ++ (lit "001B " ++ [31] ++ lit "09999:06-09-19" ++ [31] ++ lit "t17:04:50.000" ++ [30])
  ++ (lit "001D " ++ [31] ++ lit "09999:06-09-19" ++ [30])
  ++ (lit "001U " ++ [31] ++ lit "0utf8" ++ [30])
  ++ (lit "001X " ++ [31] ++ lit "00" ++ [30])
  ++ (lit "002@ " ++ [31] ++ lit "0Tsz" ++ [30])
  ++ (lit "003@ " ++ [31] ++ lit "0040379442" ++ [30])
  ++ (lit "003U " ++ [31] ++ lit "ahttp://d-nb.info/gnd/4037944-9" ++ [30])
  ++ (lit "004B " ++ [31] ++ lit "asaz" ++ [30])
  ++ (lit "007K " ++ [31] ++ lit "agnd" ++ [31] ++ lit "04037944-9" ++ [30])
  ++ (lit "007N " ++ [31] ++ lit "aswd" ++ [31] ++ lit "04037944-9" ++ [31] ++ lit "vzg" ++ [30])
  ++ (lit "008A " ++ [31] ++ lit "as" ++ [31] ++ lit "ag" ++ [30])
  ++ (lit "008B " ++ [31] ++ lit "aw" ++ [31] ++ lit "az" ++ [31] ++ lit "ao" ++ [30])
  ++ (lit "037G " ++ [31] ++ lit "cT1--0151" ++ [31] ++ lit "d2" ++ [31] ++ lit "t2007-01-01" ++ [30])
  ++ (lit "037G " ++ [31] ++ lit "c510" ++ [31] ++ lit "d4" ++ [31] ++ lit "t2007-01-01" ++ [30])
  ++ (lit "041@ " ++ [31] ++ lit "aReine Mathematik" ++ [30])
  ++ (lit "041A " ++ [31] ++ lit "aMathematik" ++ [30])
  ++ (lit "041P " ++ [31] ++ lit "aMathematics" ++ [31] ++ lit "uhttp://lccn.loc.gov/sh85082139" ++ [31] ++ lit "SDLC" ++ [31] ++ lit "0sh 85082139" ++ [31] ++ lit "2lcsh" ++ [31] ++ lit "vMACS-Mapping. Bitte keine Änderungen vornehmen." ++ [30])
  ++ (lit "041P " ++ [31] ++ lit "aMathématiques" ++ [31] ++ lit "uhttp://data.bnf.fr/11932434" ++ [31] ++ lit "SFrPBN" ++ [31] ++ lit "0FRBNF119324348" ++ [31] ++ lit "2ram" ++ [31] ++ lit "vMACS-Mapping. Bitte keine Änderungen vornehmen." ++ [30])
  ++ (lit "041R " ++ [31] ++ lit "9040159434" ++ [31] ++ lit "7Ts1" ++ [31] ++ lit "Vsaz" ++ [31] ++ lit "Agnd" ++ [31] ++ lit "04015943-7" ++ [31] ++ lit "aExakte Wissenschaften" ++ [31] ++ lit "4obal" ++ [30])
  ++ (lit "042A " ++ [31] ++ lit "a28" ++ [30])
  ++ (lit "047A/03 " ++ [31] ++ lit "eDE-101" ++ [30])
  ++ (lit "047A/03 " ++ [31] ++ lit "rDE-101" ++ [30])
  ++ (lit "047C " ++ [31] ++ lit "Sswd" ++ [31] ++ lit "is" ++ [31] ++ lit "aMathematik" ++ [31] ++ lit "04037944-9" ++ [30])
  ++ (lit "050C " ++ [31] ++ lit "aBearbeitungssperre (Top500) - Änderungswünsche an DNB" ++ [30])
  ++ (lit "050E " ++ [31] ++ lit "aM" ++ [30])
  ++ (lit "070A/02 " ++ [31] ++ lit "SMACS" ++ [31] ++ lit "00000750" ++ [30])
  ++ [10].

(** /repo/tests/data/COPY.dat.gz, decompressed *)
Definition copy : bytes :=
  (lit "003@ " ++ [31] ++ lit "0123456789" ++ [30])
  ++ (lit "002@ " ++ [31] ++ lit "0Abvz" ++ [30])
  ++ (lit "101@ " ++ [31] ++ lit "a1" ++ [30])
  ++ (lit "203@/01 " ++ [31] ++ lit "00123456789" ++ [30])
  ++ (lit "203@/02 " ++ [31] ++ lit "01234567890" ++ [30])
  ++ (lit "101@ " ++ [31] ++ lit "a2" ++ [30])
  ++ (lit "203@/01 " ++ [31] ++ lit "0345678901" ++ [30])
  ++ [10].

(** /repo/tests/data/DUMP.dat.gz, decompressed, line 1 *)
Definition dump_1 : bytes :=
  (lit "001A " ++ [31] ++ lit "01250:01-07-88" ++ [30])
  ++ (lit "001B " ++ [31] ++ lit "09999:15-04-22" ++ [31] ++ lit "t15:15:00.000" ++ [30])
  ++ (lit "001D " ++ [31] ++ lit "00292:01-08-19" ++ [30])
  ++ (lit "001U " ++ [31] ++ lit "0utf8" ++ [30])
  ++ (lit "001X " ++ [31] ++ lit "00" ++ [30])
  ++ (lit "002@ " ++ [31] ++ lit "0Tpz" ++ [30])
  ++ (lit "003@ " ++ [31] ++ lit "0118540238" ++ [30])
  ++ (lit "003U " ++ [31] ++ lit "ahttp://d-nb.info/gnd/118540238" ++ [31] ++ lit "zhttp://d-nb.info/gnd/185808069" ++ [31] ++ lit "zhttp://d-nb.info/gnd/185848826" ++ [31] ++ lit "zhttp://d-nb.info/gnd/101488358X" ++ [31] ++ lit "zhttp://d-nb.info/gnd/1014927390" ++ [31] ++ lit "zhttp://d-nb.info/gnd/1022736213" ++ [31] ++ lit "zhttp://d-nb.info/gnd/1095607278" ++ [31] ++ lit "zhttp://d-nb.info/gnd/1131918517" ++ [30])
  ++ (lit "004B " ++ [31] ++ lit "apiz" ++ [30])
  ++ (lit "006Y " ++ [31] ++ lit "Sisni" ++ [31] ++ lit "00000 0001 2099 9104" ++ [30])
  ++ (lit "006Y " ++ [31] ++ lit "Swikidata" ++ [31] ++ lit "0Q5879" ++ [30])
  ++ (lit "007K " ++ [31] ++ lit "agnd" ++ [31] ++ lit "0118540238" ++ [30])
  ++ (lit "007N " ++ [31] ++ lit "agnd" ++ [31] ++ lit "01131918517" ++ [30])
  ++ (lit "007N " ++ [31] ++ lit "agnd" ++ [31] ++ lit "01095607278" ++ [30])
  ++ (lit "007N " ++ [31] ++ lit "agnd" ++ [31] ++ lit "01022736213" ++ [30])
  ++ (lit "007N " ++ [31] ++ lit "agnd" ++ [31] ++ lit "01032060956" ++ [30])
  ++ (lit "007N " ++ [31] ++ lit "aswd" ++ [31] ++ lit "04021455-2" ++ [31] ++ lit "vzg" ++ [30])
  ++ (lit "007N " ++ [31] ++ lit "agnd" ++ [31] ++ lit "01014927390" ++ [30])
  ++ (lit "007N " ++ [31] ++ lit "apnd" ++ [31] ++ lit "01014927390" ++ [31] ++ lit "vzg" ++ [30])
  ++ (lit "007N " ++ [31] ++ lit "agnd" ++ [31] ++ lit "0101488358X" ++ [30])
  ++ (lit "007N " ++ [31] ++ lit "apnd" ++ [31] ++ lit "0101488358X" ++ [31] ++ lit "vzg" ++ [30])
  ++ (lit "007N " ++ [31] ++ lit "agnd" ++ [31] ++ lit "0185848826" ++ [30])
  ++ (lit "007N " ++ [31] ++ lit "apnd" ++ [31] ++ lit "0185848826" ++ [31] ++ lit "vzg" ++ [30])
  ++ (lit "007N " ++ [31] ++ lit "agnd" ++ [31] ++ lit "0185808069" ++ [30])
  ++ (lit "007N " ++ [31] ++ lit "apnd" ++ [31] ++ lit "0185808069" ++ [31] ++ lit "vzg" ++ [30])
  ++ (lit "007N " ++ [31] ++ lit "apnd" ++ [31] ++ lit "0118540238" ++ [31] ++ lit "vzg" ++ [30])
  ++ (lit "007N " ++ [31] ++ lit "apnd" ++ [31] ++ lit "01014123208" ++ [30])
  ++ (lit "008A " ++ [31] ++ lit "as" ++ [31] ++ lit "aa" ++ [31] ++ lit "af" ++ [31] ++ lit "az" ++ [31] ++ lit "ah" ++ [31] ++ lit "al" ++ [31] ++ lit "ad" ++ [30])
  ++ (lit "008B " ++ [31] ++ lit "av" ++ [31] ++ lit "aw" ++ [31] ++ lit "ak" ++ [31] ++ lit "am" ++ [31] ++ lit "ae" ++ [31] ++ lit "az" ++ [31] ++ lit "ao" ++ [30])
  ++ (lit "010E " ++ [31] ++ lit "erda" ++ [30])
  ++ (lit "022R " ++ [31] ++ lit "91085150313" ++ [31] ++ lit "7Tu3" ++ [31] ++ lit "Vwip" ++ [31] ++ lit "Agnd" ++ [31] ++ lit "01085150313" ++ [31] ++ lit "tExlibris" ++ [31] ++ lit "gGoethe, Johann Wolfgang von" ++ [31] ++ lit "n01" ++ [31] ++ lit "4rela" ++ [30])
  ++ (lit "022R " ++ [31] ++ lit "91085154025" ++ [31] ++ lit "7Tu3" ++ [31] ++ lit "Vwip" ++ [31] ++ lit "Agnd" ++ [31] ++ lit "01085154025" ++ [31] ++ lit "tExlibris" ++ [31] ++ lit "gGoethe, Johann Wolfgang von" ++ [31] ++ lit "n02" ++ [31] ++ lit "4rela" ++ [30])
  ++ (lit "028@ " ++ [31] ++ lit "dJohann Wolfgang" ++ [31] ++ lit "aGoethe" ++ [31] ++ lit "vADB" ++ [30])
  ++ (lit "028@ " ++ [31] ++ lit "dJohan Wolfgang" ++ [31] ++ lit "cvon" ++ [31] ++ lit "aGoethe" ++ [30])
  ++ (lit "028@ " ++ [31] ++ lit "dJohan Wolphgang" ++ [31] ++ lit "aGoethe" ++ [30])
  ++ (lit "028@ " ++ [31] ++ lit "dJohan W." ++ [31] ++ lit "cvon" ++ [31] ++ lit "aGoethe" ++ [30])
  ++ (lit "028@ " ++ [31] ++ lit "dJoh. Wolfg." ++ [31] ++ lit "cv." ++ [31] ++ lit "aGoethe" ++ [30])
  ++ (lit "028@ " ++ [31] ++ lit "dJ. Wolfgang" ++ [31] ++ lit "aGoethe" ++ [30])
  ++ (lit "028@ " ++ [31] ++ lit "dJ. W." ++ [31] ++ lit "cv." ++ [31] ++ lit "aGoethe" ++ [30])
  ++ (lit "028@ " ++ [31] ++ lit "dJ. W." ++ [31] ++ lit "aGoethe" ++ [30])
  ++ (lit "028@ " ++ [31] ++ lit "dJan Wolfgang" ++ [31] ++ lit "aGoethe" ++ [30])
  ++ (lit "028@ " ++ [31] ++ lit "dJean Wolfgang" ++ [31] ++ lit "cvon" ++ [31] ++ lit "aGoethe" ++ [30])
  ++ (lit "028@ " ++ [31] ++ lit "dJuan Wolfgang" ++ [31] ++ lit "cvon" ++ [31] ++ lit "aGoethe" ++ [30])
  ++ (lit "028@ " ++ [31] ++ lit "dJuan Wolfgang" ++ [31] ++ lit "aGoethe" ++ [30])
  ++ (lit "028@ " ++ [31] ++ lit "dJuan W." ++ [31] ++ lit "aGoethe" ++ [30])
  ++ (lit "028@ " ++ [31] ++ lit "dJoão Wolfgang" ++ [31] ++ lit "cvon" ++ [31] ++ lit "aGoethe" ++ [30])
  ++ (lit "028@ " ++ [31] ++ lit "dIohann Wolfgang" ++ [31] ++ lit "aGoethe" ++ [30])
  ++ (lit "028@ " ++ [31] ++ lit "dIohan Wolphgang" ++ [31] ++ lit "aGoethe" ++ [30])
  ++ (lit "028@ " ++ [31] ++ lit "dIoannes W." ++ [31] ++ lit "aGoethe" ++ [30])
  ++ (lit "028@ " ++ [31] ++ lit "dI. W." ++ [31] ++ lit "aGoethe" ++ [30])
  ++ (lit "028@ " ++ [31] ++ lit "dWolfgango" ++ [31] ++ lit "aGoethe" ++ [30])
  ++ (lit "028@ " ++ [31] ++ lit "dWolfango" ++ [31] ++ lit "aGoethe" ++ [30])
  ++ (lit "028@ " ++ [31] ++ lit "dW." ++ [31] ++ lit "cvon" ++ [31] ++ lit "aGoethe" ++ [30])
  ++ (lit "028@ " ++ [31] ++ lit "dVolfgango" ++ [31] ++ lit "aGoethe" ++ [30])
  ++ (lit "028@ " ++ [31] ++ lit "dVolfango" ++ [31] ++ lit "aGoethe" ++ [30])
  ++ (lit "028@ " ++ [31] ++ lit "dGiov. L." ++ [31] ++ lit "aGoethe" ++ [30])
  ++ (lit "028@ " ++ [31] ++ lit "dG. L." ++ [31] ++ lit "aGoethe" ++ [30])
  ++ (lit "028@ " ++ [31] ++ lit "PGoethe" ++ [30])
  ++ (lit "028@ " ++ [31] ++ lit "dJohann Wolfgang" ++ [31] ++ lit "aVon Goethe" ++ [30])
  ++ (lit "028@ " ++ [31] ++ lit "PGoethius" ++ [30])
  ++ (lit "028@ " ++ [31] ++ lit "dJohann Wolfgang" ++ [31] ++ lit "cvon" ++ [31] ++ lit "aGöthe" ++ [31] ++ lit "4navo" ++ [30])
  ++ (lit "028@ " ++ [31] ++ lit "dJohann W. êvonë" ++ [31] ++ lit "aGöthe" ++ [30])
  ++ (lit "028@ " ++ [31] ++ lit "dJan Wolfgang" ++ [31] ++ lit "aGöthe" ++ [30])
  ++ (lit "028@ " ++ [31] ++ lit "dJan Wolfang" ++ [31] ++ lit "aGöthe" ++ [30])
  ++ (lit "028@ " ++ [31] ++ lit "dJ. W." ++ [31] ++ lit "cvon" ++ [31] ++ lit "aGöthe" ++ [30])
  ++ (lit "028@ " ++ [31] ++ lit "dGiov. Volfango" ++ [31] ++ lit "aGöthe" ++ [30])
  ++ (lit "028@ " ++ [31] ++ lit "PGöthe" ++ [30])
  ++ (lit "028@ " ++ [31] ++ lit "dIogann V." ++ [31] ++ lit "aGöte" ++ [30])
  ++ (lit "028@ " ++ [31] ++ lit "PGöte" ++ [30])
  ++ (lit "028@ " ++ [31] ++ lit "dIohan V." ++ [31] ++ lit "cp'on" ++ [31] ++ lit "aGoete" ++ [30])
  ++ (lit "028@ " ++ [31] ++ lit "dIohan Volp'gang" ++ [31] ++ lit "aGoet'e" ++ [30])
  ++ (lit "028@ " ++ [31] ++ lit "PGoet'e" ++ [30])
  ++ (lit "028@ " ++ [31] ++ lit "PGoe te" ++ [30])
  ++ (lit "028@ " ++ [31] ++ lit "PGêôt'ê" ++ [30])
  ++ (lit "028@ " ++ [31] ++ lit "dJochan Volfgang" ++ [31] ++ lit "aG'ote" ++ [30])
  ++ (lit "028@ " ++ [31] ++ lit "dYohan Volfgang" ++ [31] ++ lit "aGete" ++ [30])
  ++ (lit "028@ " ++ [31] ++ lit "dV." ++ [31] ++ lit "cf." ++ [31] ++ lit "aG'ote" ++ [30])
  ++ (lit "028@ " ++ [31] ++ lit "PG'ote" ++ [30])
  ++ (lit "028@ " ++ [31] ++ lit "dJ. V." ++ [31] ++ lit "aGót" ++ [30])
  ++ (lit "028@ " ++ [31] ++ lit "PGót" ++ [30])
  ++ (lit "028@ " ++ [31] ++ lit "dI. V." ++ [31] ++ lit "aGo't" ++ [30])
  ++ (lit "028@ " ++ [31] ++ lit "PGoithios" ++ [30])
  ++ (lit "028@ " ++ [31] ++ lit "PGotenin" ++ [30])
  ++ (lit "028@ " ++ [31] ++ lit "PGejteh" ++ [30])
  ++ (lit "028@ " ++ [31] ++ lit "dJōhan Wolfgang" ++ [31] ++ lit "cfon" ++ [31] ++ lit "aGete" ++ [30])
  ++ (lit "028@ " ++ [31] ++ lit "dJohann Volʹfgang" ++ [31] ++ lit "aGete" ++ [30])
  ++ (lit "028@ " ++ [31] ++ lit "dJohans Volfgangs" ++ [31] ++ lit "aGéte" ++ [30])
  ++ (lit "028@ " ++ [31] ++ lit "dJohanas Volfgangas" ++ [31] ++ lit "aGėtė" ++ [30])
  ++ (lit "028@ " ++ [31] ++ lit "dJochan Volfgang" ++ [31] ++ lit "aGete" ++ [30])
  ++ (lit "028@ " ++ [31] ++ lit "dJogann Vol'fgang" ++ [31] ++ lit "cfon" ++ [31] ++ lit "aGete" ++ [30])
  ++ (lit "028@ " ++ [31] ++ lit "dJogann Vol'fgang êfonë" ++ [31] ++ lit "aGete" ++ [30])
  ++ (lit "028@ " ++ [31] ++ lit "dJogann-Vol'fgang" ++ [31] ++ lit "aGete" ++ [30])
  ++ (lit "028@ " ++ [31] ++ lit "dJ. V." ++ [31] ++ lit "aGete" ++ [30])
  ++ (lit "028@ " ++ [31] ++ lit "dJ.-V." ++ [31] ++ lit "aGete" ++ [30])
  ++ (lit "028@ " ++ [31] ++ lit "dIogann W." ++ [31] ++ lit "aGete" ++ [30])
  ++ (lit "028@ " ++ [31] ++ lit "dI. W." ++ [31] ++ lit "aGete" ++ [30])
  ++ (lit "028@ " ++ [31] ++ lit "dIohan Volfgang" ++ [31] ++ lit "aGete" ++ [30])
  ++ (lit "028@ " ++ [31] ++ lit "dIogann Vol'fgang" ++ [31] ++ lit "aGëte" ++ [30])
  ++ (lit "028@ " ++ [31] ++ lit "dJohann Volfgang" ++ [31] ++ lit "aGëte" ++ [30])
  ++ (lit "028@ " ++ [31] ++ lit "dIogann Vol'fgang" ++ [31] ++ lit "aGe͏̈te" ++ [30])
  ++ (lit "028@ " ++ [31] ++ lit "dI. V." ++ [31] ++ lit "aGete" ++ [30])
  ++ (lit "028@ " ++ [31] ++ lit "dI.-V." ++ [31] ++ lit "aGete" ++ [30])
  ++ (lit "028@ " ++ [31] ++ lit "dYohan Wolfgang" ++ [31] ++ lit "aGete" ++ [30])
  ++ (lit "028@ " ++ [31] ++ lit "dYôhân Wôlfgang" ++ [31] ++ lit "cfôn" ++ [31] ++ lit "aGete" ++ [30])
  ++ (lit "028@ " ++ [31] ++ lit "dYôhan Wolfgang" ++ [31] ++ lit "aGête" ++ [30])
  ++ (lit "028@ " ++ [31] ++ lit "dYohann Volfqanq" ++ [31] ++ lit "aGete" ++ [30])
  ++ (lit "028@ " ++ [31] ++ lit "dYogann Volʹfgang" ++ [31] ++ lit "aGete" ++ [30])
  ++ (lit "028@ " ++ [31] ++ lit "dY. W." ++ [31] ++ lit "aGete" ++ [30])
  ++ (lit "028@ " ++ [31] ++ lit "dY. W." ++ [31] ++ lit "aGêtê" ++ [30])
  ++ (lit "028@ " ++ [31] ++ lit "dVolʹfgang" ++ [31] ++ lit "aGete" ++ [30])
  ++ (lit "028@ " ++ [31] ++ lit "dV." ++ [31] ++ lit "aGete" ++ [30])
  ++ (lit "028@ " ++ [31] ++ lit "dEgan Vol'fgang" ++ [31] ++ lit "aGete" ++ [30])
  ++ (lit "028@ " ++ [31] ++ lit "PGete" ++ [30])
  ++ (lit "028@ " ++ [31] ++ lit "PGēte" ++ [30])
  ++ (lit "028@ " ++ [31] ++ lit "PGě'ṭe" ++ [30])
  ++ (lit "028@ " ++ [31] ++ lit "dG." ++ [31] ++ lit "aGette" ++ [30])
  ++ (lit "028@ " ++ [31] ++ lit "dYuehan Wofugang" ++ [31] ++ lit "aGede" ++ [30])
  ++ (lit "028@ " ++ [31] ++ lit "PGede" ++ [30])
  ++ (lit "028@ " ++ [31] ++ lit "PGe de" ++ [30])
  ++ (lit "028@ " ++ [31] ++ lit "dYohan Ṿolfgang" ++ [31] ++ lit "cfon" ++ [31] ++ lit "aGeteh" ++ [30])
  ++ (lit "028@ " ++ [31] ++ lit "dYūhān Wulfgāng" ++ [31] ++ lit "cfun" ++ [31] ++ lit "aGūta" ++ [30])
  ++ (lit "028@ " ++ [31] ++ lit "dYūhān Wulfgāng" ++ [31] ++ lit "cfūn" ++ [31] ++ lit "aGūta" ++ [30])
  ++ (lit "028@ " ++ [31] ++ lit "dYūhān Wulfǧānǧ" ++ [31] ++ lit "cfūn" ++ [31] ++ lit "aǦūta" ++ [30])
  ++ (lit "028@ " ++ [31] ++ lit "PGūta" ++ [30])
  ++ (lit "028@ " ++ [31] ++ lit "PǦīta" ++ [30])
  ++ (lit "028@ " ++ [31] ++ lit "PǦītā" ++ [30])
  ++ (lit "028@ " ++ [31] ++ lit "PǦītah" ++ [30])
  ++ (lit "028@ " ++ [31] ++ lit "PǦītih" ++ [30])
  ++ (lit "028@ " ++ [31] ++ lit "dJohan Wolphgang" ++ [31] ++ lit "aGiote" ++ [30])
  ++ (lit "028@ " ++ [31] ++ lit "dJ. W." ++ [31] ++ lit "aGiote" ++ [30])
  ++ (lit "028@ " ++ [31] ++ lit "dJochan Volfgang" ++ [31] ++ lit "aGǐote" ++ [30])
  ++ (lit "028@ " ++ [31] ++ lit "dJ. V." ++ [31] ++ lit "aGiote" ++ [30])
  ++ (lit "028@ " ++ [31] ++ lit "dYūhān Fūlfġānḡ" ++ [31] ++ lit "aĠūta" ++ [30])
  ++ (lit "028@ " ++ [31] ++ lit "dYūhān Fūlfġānḡ" ++ [31] ++ lit "aĠūtah" ++ [30])
  ++ (lit "028@ " ++ [31] ++ lit "dYūhān Vūlfġanġ" ++ [31] ++ lit "cfūn" ++ [31] ++ lit "aĠūtih" ++ [30])
  ++ (lit "028@ " ++ [31] ++ lit "dYūhān Fūlfġānḡ" ++ [31] ++ lit "aĠūtih" ++ [30])
  ++ (lit "028@ " ++ [31] ++ lit "dYohan Welfgang" ++ [31] ++ lit "cfon" ++ [31] ++ lit "aGoytä" ++ [30])
  ++ (lit "028@ " ++ [31] ++ lit "dJohān Bholphgãā" ++ [31] ++ lit "aGyote" ++ [30])
  ++ (lit "028@ " ++ [31] ++ lit "dYohan Wolfgang" ++ [31] ++ lit "aGyot'e" ++ [30])
  ++ (lit "028@ " ++ [31] ++ lit "dYohan Volfgang" ++ [31] ++ lit "aGyot'e" ++ [30])
  ++ (lit "028@ " ++ [31] ++ lit "dYŚuhŚan VŚulf·gan·g fŚun" ++ [31] ++ lit "aGŚutih" ++ [30])
  ++ (lit "028@ " ++ [31] ++ lit "dGiochan Bolphnkannk" ++ [31] ++ lit "cphon" ++ [31] ++ lit "aGkaite" ++ [30])
  ++ (lit "028@ " ++ [31] ++ lit "dGiochan Bolphnkannk êphonë" ++ [31] ++ lit "aGkaite" ++ [30])
  ++ (lit "028@ " ++ [31] ++ lit "dGiochan B." ++ [31] ++ lit "cphon" ++ [31] ++ lit "aGkaite" ++ [30])
  ++ (lit "028@ " ++ [31] ++ lit "dIōann Mpolphgang" ++ [31] ++ lit "aGkaite" ++ [30])
  ++ (lit "028@ " ++ [31] ++ lit "PGkaite" ++ [30])
  ++ (lit "028@ " ++ [31] ++ lit "dYohan Polp'ŭgang" ++ [31] ++ lit "cp'on" ++ [31] ++ lit "aKoet'e" ++ [30])
  ++ (lit "028@ " ++ [31] ++ lit "PKoet'e" ++ [30])
  ++ (lit "028@ " ++ [31] ++ lit "dVolfkank" ++ [31] ++ lit "aKêôt'ê" ++ [30])
  ++ (lit "028@ " ++ [31] ++ lit "PKēōthē" ++ [30])
  ++ (lit "028@ " ++ [31] ++ lit "dJohann Volfgang" ++ [31] ++ lit "aKote" ++ [30])
  ++ (lit "028@ " ++ [31] ++ lit "dJochann Volfgang" ++ [31] ++ lit "aKote" ++ [30])
  ++ (lit "028@ " ++ [31] ++ lit "dJ. V." ++ [31] ++ lit "aKote" ++ [30])
  ++ (lit "028@ " ++ [31] ++ lit "dV." ++ [31] ++ lit "aKote" ++ [30])
  ++ (lit "028@ " ++ [31] ++ lit "dJohann-Vol'fhanh" ++ [31] ++ lit "aHete" ++ [30])
  ++ (lit "028@ " ++ [31] ++ lit "dE͏̈han Vol'fhanh" ++ [31] ++ lit "aHe͏̈te" ++ [30])
  ++ (lit "028@ " ++ [31] ++ lit "d&Euml;han Vol'fhanh" ++ [31] ++ lit "aHëte" ++ [30])
  ++ (lit "028@ " ++ [31] ++ lit "dIohann Volfqanq" ++ [31] ++ lit "aHöte" ++ [30])
  ++ (lit "028@ " ++ [31] ++ lit "PYo han Bol peu gang pon Goe te" ++ [30])
  ++ (lit "028@ " ++ [31] ++ lit "PYohan-Bolpeugang-pon-Goete" ++ [30])
  ++ (lit "028@ " ++ [31] ++ lit "PYue han Wo fu gang Ge de" ++ [30])
  ++ (lit "028@ " ++ [31] ++ lit "PYuehan-Wofugang-Gede" ++ [30])
  ++ (lit "028@ " ++ [31] ++ lit "dYohan Wolfgang" ++ [31] ++ lit "aGyote" ++ [31] ++ lit "vuigur." ++ [30])
  ++ (lit "028@ " ++ [31] ++ lit "dJohann Wolfgang" ++ [31] ++ lit "cv." ++ [31] ++ lit "aGoethe" ++ [30])
  ++ (lit "028@ " ++ [31] ++ lit "dJohann W." ++ [31] ++ lit "cvon" ++ [31] ++ lit "aGoethe" ++ [30])
  ++ (lit "028@ " ++ [31] ++ lit "dJohann W." ++ [31] ++ lit "aGoethe" ++ [30])
  ++ (lit "028@ " ++ [31] ++ lit "dJ. W." ++ [31] ++ lit "cvon" ++ [31] ++ lit "aGoethe" ++ [30])
  ++ (lit "028@ " ++ [31] ++ lit "dWolfgang" ++ [31] ++ lit "cvon" ++ [31] ++ lit "aGoethe" ++ [30])
  ++ (lit "028@ " ++ [31] ++ lit "dWolfgang" ++ [31] ++ lit "aGoethe" ++ [30])
  ++ (lit "028@ " ++ [31] ++ lit "dJohan Volfgang" ++ [31] ++ lit "aGete" ++ [30])
  ++ (lit "028@ " ++ [31] ++ lit "dIogann Volʹfgang" ++ [31] ++ lit "aGete" ++ [30])
  ++ (lit "028@ " ++ [31] ++ lit "dJ.V." ++ [31] ++ lit "aGete" ++ [30])
  ++ (lit "028@ " ++ [31] ++ lit "dI.V." ++ [31] ++ lit "aGoithios" ++ [30])
  ++ (lit "028@ " ++ [31] ++ lit "dYohan Vorufugangu Fon" ++ [31] ++ lit "aGēte" ++ [30])
  ++ (lit "028@ " ++ [31] ++ lit "dYūhān Fūlfġānġ fūn" ++ [31] ++ lit "aĠūtih" ++ [30])
  ++ (lit "028@ " ++ [31] ++ lit "PGoythe" ++ [30])
  ++ (lit "028@ " ++ [31] ++ lit "dJ.W." ++ [31] ++ lit "cvon" ++ [31] ++ lit "aGoethe" ++ [30])
  ++ (lit "028@ " ++ [31] ++ lit "dJ.W." ++ [31] ++ lit "aGoethe" ++ [30])
  ++ (lit "028@ " ++ [31] ++ lit "T01" ++ [31] ++ lit "UCyrl" ++ [31] ++ lit "Luzb" ++ [31] ++ lit "dЙоҳанн Волфганг" ++ [31] ++ lit "aГёте" ++ [30])
  ++ (lit "028@ " ++ [31] ++ lit "T01" ++ [31] ++ lit "UHans" ++ [31] ++ lit "P歌德" ++ [31] ++ lit "5DE-576" ++ [30])
  ++ (lit "028@ " ++ [31] ++ lit "T01" ++ [31] ++ lit "UHant" ++ [31] ++ lit "P約翰・沃爾夫岡・馮・歌德" ++ [31] ++ lit "5DE-576" ++ [30])
  ++ (lit "028@ " ++ [31] ++ lit "T01" ++ [31] ++ lit "UHans" ++ [31] ++ lit "P约翰・沃尔夫冈・冯・歌德" ++ [31] ++ lit "5DE-576" ++ [30])
  ++ (lit "028@ " ++ [31] ++ lit "T01" ++ [31] ++ lit "UJpan" ++ [31] ++ lit "dヨハン・ヴォルフガング・フォン" ++ [31] ++ lit "aゲーテ" ++ [31] ++ lit "5DE-576" ++ [30])
  ++ (lit "028@ " ++ [31] ++ lit "T01" ++ [31] ++ lit "UHebr" ++ [31] ++ lit "dיוהן וולפגנג פון" ++ [31] ++ lit "aגתה" ++ [30])
  ++ (lit "028@ " ++ [31] ++ lit "T01" ++ [31] ++ lit "UHans" ++ [31] ++ lit "P歌德" ++ [30])
  ++ (lit "028@ " ++ [31] ++ lit "T01" ++ [31] ++ lit "UJpan" ++ [31] ++ lit "dヨハン・ヴォルフガング・フォン" ++ [31] ++ lit "aゲーテ" ++ [30])
  ++ (lit "028@ " ++ [31] ++ lit "T01" ++ [31] ++ lit "UGeor" ++ [31] ++ lit "dიოჰან ვოლფგანგ ფონ" ++ [31] ++ lit "aგოეთე" ++ [30])
  ++ (lit "028A " ++ [31] ++ lit "dJohann Wolfgang" ++ [31] ++ lit "cvon" ++ [31] ++ lit "aGoethe" ++ [30])
  ++ (lit "028P " ++ [31] ++ lit "dJohann Wolfgang von" ++ [31] ++ lit "aGoethe" ++ [31] ++ lit "SDLC" ++ [31] ++ lit "0n 79003362" ++ [31] ++ lit "2naf" ++ [31] ++ lit "v1749-1832" ++ [30])
  ++ (lit "028P " ++ [31] ++ lit "T01" ++ [31] ++ lit "UArab" ++ [31] ++ lit "Luig" ++ [31] ++ lit "dيوھان ۋولڧگاڭ" ++ [31] ++ lit "aگيوتې" ++ [30])
  ++ (lit "028P " ++ [31] ++ lit "T01" ++ [31] ++ lit "UKore" ++ [31] ++ lit "d요한 볼프강 폰" ++ [31] ++ lit "a괴테" ++ [31] ++ lit "5DE-576" ++ [30])
  ++ (lit "028P " ++ [31] ++ lit "T01" ++ [31] ++ lit "UHans" ++ [31] ++ lit "d约翰·沃尔夫冈·" ++ [31] ++ lit "a歌德" ++ [30])
  ++ (lit "028P " ++ [31] ++ lit "T01" ++ [31] ++ lit "UArab" ++ [31] ++ lit "dیوهان ولفگانگ" ++ [31] ++ lit "cفون" ++ [31] ++ lit "aگوته" ++ [30])
  ++ (lit "028P " ++ [31] ++ lit "T01" ++ [31] ++ lit "UCyrl" ++ [31] ++ lit "Luzb" ++ [31] ++ lit "dЙоҳанн Волфганг" ++ [31] ++ lit "aГёте" ++ [31] ++ lit "vVorlage" ++ [30])
  ++ (lit "028R " ++ [31] ++ lit "9118695940" ++ [31] ++ lit "7Tp1" ++ [31] ++ lit "Vpiz" ++ [31] ++ lit "Agnd" ++ [31] ++ lit "0118695940" ++ [31] ++ lit "E1710" ++ [31] ++ lit "G1782" ++ [31] ++ lit "dJohann Caspar" ++ [31] ++ lit "aGoethe" ++ [31] ++ lit "4bezf" ++ [31] ++ lit "vVater" ++ [30])
  ++ (lit "028R " ++ [31] ++ lit "9118540246" ++ [31] ++ lit "7Tp1" ++ [31] ++ lit "Vpiz" ++ [31] ++ lit "Agnd" ++ [31] ++ lit "0118540246" ++ [31] ++ lit "E1731" ++ [31] ++ lit "G1808" ++ [31] ++ lit "dKatharina Elisabeth" ++ [31] ++ lit "aGoethe" ++ [31] ++ lit "4bezf" ++ [31] ++ lit "vMutter" ++ [30])
  ++ (lit "028R " ++ [31] ++ lit "911871791X" ++ [31] ++ lit "7Tp1" ++ [31] ++ lit "Vpiz" ++ [31] ++ lit "Agnd" ++ [31] ++ lit "011871791X" ++ [31] ++ lit "E1750" ++ [31] ++ lit "G1777" ++ [31] ++ lit "dCornelia" ++ [31] ++ lit "aGoethe" ++ [31] ++ lit "4bezf" ++ [31] ++ lit "vSchwester" ++ [30])
  ++ (lit "028R " ++ [31] ++ lit "9118795163" ++ [31] ++ lit "7Tp1" ++ [31] ++ lit "Vpiz" ++ [31] ++ lit "Agnd" ++ [31] ++ lit "0118795163" ++ [31] ++ lit "E1739" ++ [31] ++ lit "G1799" ++ [31] ++ lit "dJohann Georg" ++ [31] ++ lit "aSchlosser" ++ [31] ++ lit "4bezf" ++ [31] ++ lit "vSchwager" ++ [30])
  ++ (lit "028R " ++ [31] ++ lit "9118628011" ++ [31] ++ lit "7Tp1" ++ [31] ++ lit "Vpiz" ++ [31] ++ lit "Agnd" ++ [31] ++ lit "0118628011" ++ [31] ++ lit "E1765" ++ [31] ++ lit "G1816" ++ [31] ++ lit "dChristiane" ++ [31] ++ lit "aGoethe" ++ [31] ++ lit "cvon" ++ [31] ++ lit "4bezf" ++ [31] ++ lit "vEhefrau" ++ [30])
  ++ (lit "028R " ++ [31] ++ lit "911854022X" ++ [31] ++ lit "7Tp1" ++ [31] ++ lit "Vpiz" ++ [31] ++ lit "Agnd" ++ [31] ++ lit "011854022X" ++ [31] ++ lit "E1789" ++ [31] ++ lit "G1830" ++ [31] ++ lit "dAugust" ++ [31] ++ lit "aGoethe" ++ [31] ++ lit "cvon" ++ [31] ++ lit "4bezf" ++ [31] ++ lit "vSohn" ++ [30])
  ++ (lit "028R " ++ [31] ++ lit "9118540254" ++ [31] ++ lit "7Tp1" ++ [31] ++ lit "Vpiz" ++ [31] ++ lit "Agnd" ++ [31] ++ lit "0118540254" ++ [31] ++ lit "E1796" ++ [31] ++ lit "G1872" ++ [31] ++ lit "dOttilie" ++ [31] ++ lit "aGoethe" ++ [31] ++ lit "cvon" ++ [31] ++ lit "4bezf" ++ [31] ++ lit "vSchwiegertochter" ++ [30])
  ++ (lit "028R " ++ [31] ++ lit "911687256X" ++ [31] ++ lit "7Tp1" ++ [31] ++ lit "Vpiz" ++ [31] ++ lit "Agnd" ++ [31] ++ lit "011687256X" ++ [31] ++ lit "E1734" ++ [31] ++ lit "G1823" ++ [31] ++ lit "dJohanna Maria" ++ [31] ++ lit "aMelber" ++ [31] ++ lit "4bezf" ++ [31] ++ lit "vTante" ++ [30])
  ++ (lit "028R " ++ [31] ++ lit "9118617222" ++ [31] ++ lit "7Tp1" ++ [31] ++ lit "Vpiz" ++ [31] ++ lit "Agnd" ++ [31] ++ lit "0118617222" ++ [31] ++ lit "E1742" ++ [31] ++ lit "G1827" ++ [31] ++ lit "dCharlotte" ++ [31] ++ lit "aStein" ++ [31] ++ lit "cvon" ++ [31] ++ lit "4beza" ++ [31] ++ lit "vFreundin" ++ [30])
  ++ (lit "028R " ++ [31] ++ lit "9118633252" ++ [31] ++ lit "7Tp1" ++ [31] ++ lit "Vpiz" ++ [31] ++ lit "Agnd" ++ [31] ++ lit "0118633252" ++ [31] ++ lit "E1784" ++ [31] ++ lit "G1860" ++ [31] ++ lit "dMarianne" ++ [31] ++ lit "aWillemer" ++ [31] ++ lit "cvon" ++ [31] ++ lit "4beza" ++ [31] ++ lit "vFreundin" ++ [30])
  ++ (lit "028R " ++ [31] ++ lit "9118638076" ++ [31] ++ lit "7Tp1" ++ [31] ++ lit "Vpiz" ++ [31] ++ lit "Agnd" ++ [31] ++ lit "0118638076" ++ [31] ++ lit "E1753" ++ [31] ++ lit "G1828" ++ [31] ++ lit "dCharlotte" ++ [31] ++ lit "aBuff" ++ [31] ++ lit "4beza" ++ [31] ++ lit "vFreundin" ++ [30])
  ++ (lit "028R " ++ [31] ++ lit "9119277387" ++ [31] ++ lit "7Tp1" ++ [31] ++ lit "Vpiz" ++ [31] ++ lit "Agnd" ++ [31] ++ lit "0119277387" ++ [31] ++ lit "E1789" ++ [31] ++ lit "G1865" ++ [31] ++ lit "dMinna" ++ [31] ++ lit "aHerzlieb" ++ [31] ++ lit "4beza" ++ [31] ++ lit "vFreundin" ++ [30])
  ++ (lit "028R " ++ [31] ++ lit "9118727907" ++ [31] ++ lit "7Tp1" ++ [31] ++ lit "Vpiz" ++ [31] ++ lit "Agnd" ++ [31] ++ lit "0118727907" ++ [31] ++ lit "E1804" ++ [31] ++ lit "G1899" ++ [31] ++ lit "dUlrike" ++ [31] ++ lit "aLevetzow" ++ [31] ++ lit "cvon" ++ [31] ++ lit "4beza" ++ [31] ++ lit "vletzte Freundin 1821-1823 (»Marienbader Elegie«)" ++ [30])
  ++ (lit "028R " ++ [31] ++ lit "911856014X" ++ [31] ++ lit "7Tp1" ++ [31] ++ lit "Vpik" ++ [31] ++ lit "Agnd" ++ [31] ++ lit "011856014X" ++ [31] ++ lit "E1757" ++ [31] ++ lit "G1828" ++ [31] ++ lit "PKarl August" ++ [31] ++ lit "lSachsen-Weimar-Eisenach, Großherzog" ++ [31] ++ lit "4bezb" ++ [30])
  ++ (lit "028R " ++ [31] ++ lit "9118607626" ++ [31] ++ lit "7Tp1" ++ [31] ++ lit "Vpiz" ++ [31] ++ lit "Agnd" ++ [31] ++ lit "0118607626" ++ [31] ++ lit "E1759" ++ [31] ++ lit "G1805" ++ [31] ++ lit "dFriedrich" ++ [31] ++ lit "aSchiller" ++ [31] ++ lit "4beza" ++ [30])
  ++ (lit "032T " ++ [31] ++ lit "am" ++ [30])
  ++ (lit "041R " ++ [31] ++ lit "9040533093" ++ [31] ++ lit "7Tsz" ++ [31] ++ lit "Vsaz" ++ [31] ++ lit "Agnd" ++ [31] ++ lit "04053309-8" ++ [31] ++ lit "aSchriftsteller" ++ [31] ++ lit "4berc" ++ [30])
  ++ (lit "041R " ++ [31] ++ lit "9041763106" ++ [31] ++ lit "7Ts1" ++ [31] ++ lit "Vsaz" ++ [31] ++ lit "Agnd" ++ [31] ++ lit "04176310-5" ++ [31] ++ lit "aPublizist" ++ [31] ++ lit "4beru" ++ [30])
  ++ (lit "041R " ++ [31] ++ lit "9040465179" ++ [31] ++ lit "7Ts1" ++ [31] ++ lit "Vsaz" ++ [31] ++ lit "Agnd" ++ [31] ++ lit "04046517-2" ++ [31] ++ lit "aPolitiker" ++ [31] ++ lit "4beru" ++ [30])
  ++ (lit "041R " ++ [31] ++ lit "9040290506" ++ [31] ++ lit "7Ts1" ++ [31] ++ lit "Vsaz" ++ [31] ++ lit "Agnd" ++ [31] ++ lit "04029050-5" ++ [31] ++ lit "aJurist" ++ [31] ++ lit "4beru" ++ [30])
  ++ (lit "041R " ++ [31] ++ lit "904041423X" ++ [31] ++ lit "7Ts1" ++ [31] ++ lit "Vsaz" ++ [31] ++ lit "Agnd" ++ [31] ++ lit "04041423-1" ++ [31] ++ lit "aNaturwissenschaftler" ++ [31] ++ lit "4beru" ++ [30])
  ++ (lit "041R " ++ [31] ++ lit "9041850440" ++ [31] ++ lit "7Ts1" ++ [31] ++ lit "Vsaz" ++ [31] ++ lit "Agnd" ++ [31] ++ lit "04185044-0" ++ [31] ++ lit "aTheaterintendant" ++ [31] ++ lit "4beru" ++ [30])
  ++ (lit "041R " ++ [31] ++ lit "9040372154" ++ [31] ++ lit "7Ts1" ++ [31] ++ lit "Vsaz" ++ [31] ++ lit "Agnd" ++ [31] ++ lit "04037215-7" ++ [31] ++ lit "aMaler" ++ [31] ++ lit "4beru" ++ [30])
  ++ (lit "041R " ++ [31] ++ lit "9042003458" ++ [31] ++ lit "7Ts1" ++ [31] ++ lit "Vsaz" ++ [31] ++ lit "Agnd" ++ [31] ++ lit "04200345-3" ++ [31] ++ lit "aZeichner" ++ [31] ++ lit "4beru" ++ [30])
  ++ (lit "042A " ++ [31] ++ lit "a12.2p" ++ [31] ++ lit "a16.5p" ++ [31] ++ lit "a15.1p" ++ [31] ++ lit "a13.4p" ++ [31] ++ lit "a7.14p" ++ [31] ++ lit "a18p" ++ [30])
  ++ (lit "042B " ++ [31] ++ lit "aXA-DE" ++ [30])
  ++ (lit "042C " ++ [31] ++ lit "ager" ++ [30])
  ++ (lit "047A/03 " ++ [31] ++ lit "eDE-101" ++ [30])
  ++ (lit "047A/03 " ++ [31] ++ lit "rDE-101" ++ [30])
  ++ (lit "047C " ++ [31] ++ lit "Spnd" ++ [31] ++ lit "ia" ++ [31] ++ lit "aGoethe, Johann Wolfgang /von" ++ [31] ++ lit "0118540238" ++ [30])
  ++ (lit "047C " ++ [31] ++ lit "Spnd" ++ [31] ++ lit "ia" ++ [31] ++ lit "aGoethe, Johann W. /von" ++ [31] ++ lit "0185808069" ++ [30])
  ++ (lit "047C " ++ [31] ++ lit "Spnd" ++ [31] ++ lit "ia" ++ [31] ++ lit "aGoethe, Johann W." ++ [31] ++ lit "0185848826" ++ [30])
  ++ (lit "047C " ++ [31] ++ lit "Spnd" ++ [31] ++ lit "ia" ++ [31] ++ lit "aGoethe, Johann Wolfgang" ++ [31] ++ lit "0101488358X" ++ [30])
  ++ (lit "047C " ++ [31] ++ lit "Spnd" ++ [31] ++ lit "ia" ++ [31] ++ lit "aGoethe, Johann Wolfgang von" ++ [31] ++ lit "01014927390" ++ [30])
  ++ (lit "050C " ++ [31] ++ lit "aBearbeitungssperre (Top500) - Änderungswünsche an DNB" ++ [30])
  ++ (lit "050C " ++ [31] ++ lit "aNDSBIO" ++ [30])
  ++ (lit "050C " ++ [31] ++ lit "aVD-17" ++ [30])
  ++ (lit "050C " ++ [31] ++ lit "a7" ++ [30])
  ++ (lit "050C " ++ [31] ++ lit "a12" ++ [30])
  ++ (lit "050C " ++ [31] ++ lit "a384" ++ [30])
  ++ (lit "050C " ++ [31] ++ lit "aSWB" ++ [30])
  ++ (lit "050C " ++ [31] ++ lit "aOENAK" ++ [30])
  ++ (lit "050C " ++ [31] ++ lit "aBuchbesitz: HAAB Weimar" ++ [30])
  ++ (lit "050C " ++ [31] ++ lit "aQuelle: DNB-Normdaten (Info DNB: Deutschland (XA-DE) Sprache(n) Deutsch (ger) Geografischer Bezug Geburtsort: Frankfurt am Main Sterbeort: Weimar Beruf(e) Schriftsteller Publizist Politiker Jurist Naturwissenschaftler Theaterintendant Maler Zeichner)" ++ [30])
  ++ (lit "050D " ++ [31] ++ lit "aLaut dem Buch '""Nachtwachen"" von Bonaventura alias J. W. v. Goethe' von Lothar Baus ist Goethe möglicher Verf. der ""Nachtwachen""." ++ [30])
  ++ (lit "050E " ++ [31] ++ lit "aADB" ++ [31] ++ lit "bStand: 31.08.2015" ++ [31] ++ lit "uhttp://www.deutsche-biographie.de/ppn118540238.html?anchor=adb" ++ [30])
  ++ (lit "050E " ++ [31] ++ lit "aWikipedia" ++ [31] ++ lit "bStand: 04.06.2021" ++ [31] ++ lit "uhttps://de.wikipedia.org/w/index.php?title=Johann_Wolfgang_von_Goethe&oldid=212577860" ++ [30])
  ++ (lit "050E " ++ [31] ++ lit "aM" ++ [30])
  ++ (lit "050E " ++ [31] ++ lit "aB 1986" ++ [30])
  ++ (lit "050E " ++ [31] ++ lit "aLCAuth" ++ [30])
  ++ (lit "050E " ++ [31] ++ lit "aKosch Lit." ++ [30])
  ++ (lit "050E " ++ [31] ++ lit "aDbA" ++ [30])
  ++ (lit "050E " ++ [31] ++ lit "aProvenienzmerkmal" ++ [31] ++ lit "bExlibris" ++ [30])
  ++ (lit "050E " ++ [31] ++ lit "aProvenienzmerkmal" ++ [31] ++ lit "bAutogramm" ++ [30])
  ++ (lit "050G " ++ [31] ++ lit "bStaatsmann, Geheimrat" ++ [30])
  ++ (lit "060R " ++ [31] ++ lit "a28.08.1749" ++ [31] ++ lit "b22.03.1832" ++ [31] ++ lit "4datx" ++ [30])
  ++ (lit "060R " ++ [31] ++ lit "a1749" ++ [31] ++ lit "b1832" ++ [31] ++ lit "4datl" ++ [30])
  ++ (lit "065R " ++ [31] ++ lit "9040181189" ++ [31] ++ lit "7Tg1" ++ [31] ++ lit "Vgik" ++ [31] ++ lit "Agnd" ++ [31] ++ lit "04018118-2" ++ [31] ++ lit "aFrankfurt am Main" ++ [31] ++ lit "4ortg" ++ [30])
  ++ (lit "065R " ++ [31] ++ lit "9040651053" ++ [31] ++ lit "7Tg1" ++ [31] ++ lit "Vgik" ++ [31] ++ lit "Agnd" ++ [31] ++ lit "04065105-8" ++ [31] ++ lit "aWeimar" ++ [31] ++ lit "4orts" ++ [30])
  ++ (lit "065R " ++ [31] ++ lit "9040651053" ++ [31] ++ lit "7Tg1" ++ [31] ++ lit "Vgik" ++ [31] ++ lit "Agnd" ++ [31] ++ lit "04065105-8" ++ [31] ++ lit "aWeimar" ++ [31] ++ lit "4ortw" ++ [30])
  ++ (lit "070A/02 " ++ [31] ++ lit "SDE-Wi17FP" ++ [31] ++ lit "0CCBAA3CEF5654B98AD772651F9023DE6" ++ [30])
  ++ (lit "070A/03 " ++ [31] ++ lit "SDE-101d" ++ [31] ++ lit "0pnd:118540238" ++ [30])
  ++ (lit "070A/03 " ++ [31] ++ lit "SIDS" ++ [31] ++ lit "0110067908" ++ [30])
  ++ (lit "070A/03 " ++ [31] ++ lit "SIDS" ++ [31] ++ lit "0120055814" ++ [30])
  ++ (lit "070A/03 " ++ [31] ++ lit "SIDS" ++ [31] ++ lit "0130059035" ++ [30])
  ++ (lit "070A/03 " ++ [31] ++ lit "SIDS" ++ [31] ++ lit "0150010660" ++ [30])
  ++ [10].

(** /repo/tests/data/DUMP.dat.gz, decompressed, line 2 *)
Definition dump_2 : bytes :=
  (lit "001A " ++ [31] ++ lit "01250:01-07-88" ++ [30])
  ++ (lit "001B " ++ [31] ++ lit "02110:11-07-22" ++ [31] ++ lit "t15:26:15.000" ++ [30])
  ++ (lit "001D " ++ [31] ++ lit "01220:16-06-08" ++ [30])
  ++ (lit "001U " ++ [31] ++ lit "0utf8" ++ [30])
  ++ (lit "001X " ++ [31] ++ lit "00" ++ [30])
  ++ (lit "002@ " ++ [31] ++ lit "0Tp1" ++ [30])
  ++ (lit "003@ " ++ [31] ++ lit "0118607626" ++ [30])
  ++ (lit "003U " ++ [31] ++ lit "ahttp://d-nb.info/gnd/118607626" ++ [31] ++ lit "zhttp://d-nb.info/gnd/17404092X" ++ [31] ++ lit "zhttp://d-nb.info/gnd/174166745" ++ [31] ++ lit "zhttp://d-nb.info/gnd/189458372" ++ [31] ++ lit "zhttp://d-nb.info/gnd/159164559" ++ [31] ++ lit "zhttp://d-nb.info/gnd/1025671430" ++ [30])
  ++ (lit "004B " ++ [31] ++ lit "apiz" ++ [30])
  ++ (lit "007K " ++ [31] ++ lit "agnd" ++ [31] ++ lit "0118607626" ++ [30])
  ++ (lit "007N " ++ [31] ++ lit "agnd" ++ [31] ++ lit "01025671430" ++ [30])
  ++ (lit "007N " ++ [31] ++ lit "agnd" ++ [31] ++ lit "0159164559" ++ [30])
  ++ (lit "007N " ++ [31] ++ lit "apnd" ++ [31] ++ lit "0159164559" ++ [31] ++ lit "vzg" ++ [30])
  ++ (lit "007N " ++ [31] ++ lit "agnd" ++ [31] ++ lit "0189458372" ++ [30])
  ++ (lit "007N " ++ [31] ++ lit "apnd" ++ [31] ++ lit "0189458372" ++ [31] ++ lit "vzg" ++ [30])
  ++ (lit "007N " ++ [31] ++ lit "aswd" ++ [31] ++ lit "07802698-2" ++ [31] ++ lit "vzg" ++ [30])
  ++ (lit "007N " ++ [31] ++ lit "agnd" ++ [31] ++ lit "0174166745" ++ [30])
  ++ (lit "007N " ++ [31] ++ lit "apnd" ++ [31] ++ lit "0174166745" ++ [31] ++ lit "vzg" ++ [30])
  ++ (lit "007N " ++ [31] ++ lit "agnd" ++ [31] ++ lit "017404092X" ++ [30])
  ++ (lit "007N " ++ [31] ++ lit "apnd" ++ [31] ++ lit "017404092X" ++ [31] ++ lit "vzg" ++ [30])
  ++ (lit "007N " ++ [31] ++ lit "apnd" ++ [31] ++ lit "0118607626" ++ [31] ++ lit "vzg" ++ [30])
  ++ (lit "007N " ++ [31] ++ lit "apnd" ++ [31] ++ lit "0131144839" ++ [30])
  ++ (lit "007N " ++ [31] ++ lit "apnd" ++ [31] ++ lit "0131144820" ++ [30])
  ++ (lit "008A " ++ [31] ++ lit "aa" ++ [31] ++ lit "ad" ++ [31] ++ lit "af" ++ [31] ++ lit "ah" ++ [31] ++ lit "al" ++ [31] ++ lit "as" ++ [31] ++ lit "az" ++ [30])
  ++ (lit "008B " ++ [31] ++ lit "av" ++ [31] ++ lit "aw" ++ [31] ++ lit "ak" ++ [31] ++ lit "am" ++ [31] ++ lit "ao" ++ [31] ++ lit "ae" ++ [31] ++ lit "az" ++ [30])
  ++ (lit "010E " ++ [31] ++ lit "erda" ++ [30])
  ++ (lit "022R " ++ [31] ++ lit "91255052090" ++ [31] ++ lit "7Tu3" ++ [31] ++ lit "Vwin" ++ [31] ++ lit "Agnd" ++ [31] ++ lit "01255052090" ++ [31] ++ lit "tNachlass Friedrich Schiller" ++ [31] ++ lit "4rela" ++ [30])
  ++ (lit "028@ " ++ [31] ++ lit "dFriedrich" ++ [31] ++ lit "cvon" ++ [31] ++ lit "aSchiller" ++ [31] ++ lit "4nasp" ++ [31] ++ lit "vab 1802" ++ [30])
  ++ (lit "028@ " ++ [31] ++ lit "dFriederich" ++ [31] ++ lit "aSchiller" ++ [30])
  ++ (lit "028@ " ++ [31] ++ lit "dFriederich" ++ [31] ++ lit "cvon" ++ [31] ++ lit "aSchiller" ++ [30])
  ++ (lit "028@ " ++ [31] ++ lit "dC. Friedrich" ++ [31] ++ lit "cvon" ++ [31] ++ lit "aSchiller" ++ [30])
  ++ (lit "028@ " ++ [31] ++ lit "dFederico" ++ [31] ++ lit "cde" ++ [31] ++ lit "aSchiller" ++ [30])
  ++ (lit "028@ " ++ [31] ++ lit "dFridrich" ++ [31] ++ lit "cvon" ++ [31] ++ lit "aSchiller" ++ [30])
  ++ (lit "028@ " ++ [31] ++ lit "dFridrich" ++ [31] ++ lit "aSchiller" ++ [30])
  ++ (lit "028@ " ++ [31] ++ lit "dFriderich" ++ [31] ++ lit "aSchiller" ++ [30])
  ++ (lit "028@ " ++ [31] ++ lit "dFriedrich Johann Christoph" ++ [31] ++ lit "cvon" ++ [31] ++ lit "aSchiller" ++ [30])
  ++ (lit "028@ " ++ [31] ++ lit "dFriedrich" ++ [31] ++ lit "cv." ++ [31] ++ lit "aSchiller" ++ [30])
  ++ (lit "028@ " ++ [31] ++ lit "dFriedr." ++ [31] ++ lit "cvon" ++ [31] ++ lit "aSchiller" ++ [30])
  ++ (lit "028@ " ++ [31] ++ lit "dFr." ++ [31] ++ lit "aSchiller" ++ [30])
  ++ (lit "028@ " ++ [31] ++ lit "dFedericus" ++ [31] ++ lit "aSchiller" ++ [30])
  ++ (lit "028@ " ++ [31] ++ lit "dJohann Christoph Friedrich" ++ [31] ++ lit "cvon" ++ [31] ++ lit "aSchiller" ++ [31] ++ lit "vB 1996" ++ [30])
  ++ (lit "028@ " ++ [31] ++ lit "dJohann Christoph Friderich" ++ [31] ++ lit "aSchiller" ++ [30])
  ++ (lit "028@ " ++ [31] ++ lit "dJohann Christoph Friedrich" ++ [31] ++ lit "aSchiller" ++ [30])
  ++ (lit "028@ " ++ [31] ++ lit "dJoh. Christoph Frid." ++ [31] ++ lit "aSchiller" ++ [30])
  ++ (lit "028@ " ++ [31] ++ lit "dJohann C." ++ [31] ++ lit "cvon" ++ [31] ++ lit "aSchiller" ++ [30])
  ++ (lit "028@ " ++ [31] ++ lit "dJohann C." ++ [31] ++ lit "aSchiller" ++ [30])
  ++ (lit "028@ " ++ [31] ++ lit "dJohann Friedrich Christoph" ++ [31] ++ lit "cvon" ++ [31] ++ lit "aSchiller" ++ [30])
  ++ (lit "028@ " ++ [31] ++ lit "dGiovanni Cristoforo Federico" ++ [31] ++ lit "aSchiller" ++ [30])
  ++ (lit "028@ " ++ [31] ++ lit "dJohann F." ++ [31] ++ lit "cvon" ++ [31] ++ lit "aSchiller" ++ [30])
  ++ (lit "028@ " ++ [31] ++ lit "dJ. C. Friedrich" ++ [31] ++ lit "cvon" ++ [31] ++ lit "aSchiller" ++ [30])
  ++ (lit "028@ " ++ [31] ++ lit "dJ. C. F." ++ [31] ++ lit "aSchiller" ++ [30])
  ++ (lit "028@ " ++ [31] ++ lit "dJohann Frederich" ++ [31] ++ lit "aSchiller" ++ [30])
  ++ (lit "028@ " ++ [31] ++ lit "dBedřich" ++ [31] ++ lit "aSchiller" ++ [30])
  ++ (lit "028@ " ++ [31] ++ lit "dC. F." ++ [31] ++ lit "aSchiller" ++ [30])
  ++ (lit "028@ " ++ [31] ++ lit "dFederico" ++ [31] ++ lit "aSchiller" ++ [30])
  ++ (lit "028@ " ++ [31] ++ lit "dFrederic" ++ [31] ++ lit "aSchiller" ++ [30])
  ++ (lit "028@ " ++ [31] ++ lit "dFrédéric" ++ [31] ++ lit "aSchiller" ++ [30])
  ++ (lit "028@ " ++ [31] ++ lit "dFrédéric" ++ [31] ++ lit "cde" ++ [31] ++ lit "aSchiller" ++ [30])
  ++ (lit "028@ " ++ [31] ++ lit "dFrédéric" ++ [31] ++ lit "cvon" ++ [31] ++ lit "aSchiller" ++ [30])
  ++ (lit "028@ " ++ [31] ++ lit "dFrederik" ++ [31] ++ lit "aSchiller" ++ [30])
  ++ (lit "028@ " ++ [31] ++ lit "dFrederick" ++ [31] ++ lit "aSchiller" ++ [30])
  ++ (lit "028@ " ++ [31] ++ lit "dFrederico" ++ [31] ++ lit "aSchiller" ++ [30])
  ++ (lit "028@ " ++ [31] ++ lit "dFriderico" ++ [31] ++ lit "aSchiller" ++ [30])
  ++ (lit "028@ " ++ [31] ++ lit "dFridericus" ++ [31] ++ lit "aSchiller" ++ [30])
  ++ (lit "028@ " ++ [31] ++ lit "dFridericus" ++ [31] ++ lit "cde" ++ [31] ++ lit "aSchiller" ++ [30])
  ++ (lit "028@ " ++ [31] ++ lit "dFrideriko" ++ [31] ++ lit "aSchiller" ++ [30])
  ++ (lit "028@ " ++ [31] ++ lit "dFridrik" ++ [31] ++ lit "aSchiller" ++ [30])
  ++ (lit "028@ " ++ [31] ++ lit "dFridrick" ++ [31] ++ lit "aSchiller" ++ [30])
  ++ (lit "028@ " ++ [31] ++ lit "dFryderyk" ++ [31] ++ lit "aSchiller" ++ [30])
  ++ (lit "028@ " ++ [31] ++ lit "dFrigyes" ++ [31] ++ lit "aSchiller" ++ [30])
  ++ (lit "028@ " ++ [31] ++ lit "dFr." ++ [31] ++ lit "cv." ++ [31] ++ lit "aSchiller" ++ [30])
  ++ (lit "028@ " ++ [31] ++ lit "dFr." ++ [31] ++ lit "cvon" ++ [31] ++ lit "aSchiller" ++ [30])
  ++ (lit "028@ " ++ [31] ++ lit "dF." ++ [31] ++ lit "cvon" ++ [31] ++ lit "aSchiller" ++ [30])
  ++ (lit "028@ " ++ [31] ++ lit "dF." ++ [31] ++ lit "aSchiller" ++ [30])
  ++ (lit "028@ " ++ [31] ++ lit "dBjedrich" ++ [31] ++ lit "aSchiller" ++ [30])
  ++ (lit "028@ " ++ [31] ++ lit "dFridericus" ++ [31] ++ lit "aSchillerus" ++ [30])
  ++ (lit "028@ " ++ [31] ++ lit "dFridericus" ++ [31] ++ lit "cde" ++ [31] ++ lit "aSchillerus" ++ [30])
  ++ (lit "028@ " ++ [31] ++ lit "PSchiller" ++ [30])
  ++ (lit "028@ " ++ [31] ++ lit "PSchüller" ++ [30])
  ++ (lit "028@ " ++ [31] ++ lit "PHsilô" ++ [30])
  ++ (lit "028@ " ++ [31] ++ lit "dFridrih" ++ [31] ++ lit "aShiler" ++ [30])
  ++ (lit "028@ " ++ [31] ++ lit "PShirâ" ++ [30])
  ++ (lit "028@ " ++ [31] ++ lit "PShirureru" ++ [30])
  ++ (lit "028@ " ++ [31] ++ lit "dFridrich" ++ [31] ++ lit "aŠiler" ++ [30])
  ++ (lit "028@ " ++ [31] ++ lit "dFridrih" ++ [31] ++ lit "aŠiler" ++ [30])
  ++ (lit "028@ " ++ [31] ++ lit "dFridrik" ++ [31] ++ lit "aŠiler" ++ [30])
  ++ (lit "028@ " ++ [31] ++ lit "dJohan Hristof Fridrih" ++ [31] ++ lit "cfon" ++ [31] ++ lit "aŠiler" ++ [30])
  ++ (lit "028@ " ++ [31] ++ lit "PŠiler" ++ [30])
  ++ (lit "028@ " ++ [31] ++ lit "dPhridrih" ++ [31] ++ lit "aŠileri" ++ [30])
  ++ (lit "028@ " ++ [31] ++ lit "dFridrichas" ++ [31] ++ lit "aŠileris" ++ [30])
  ++ (lit "028@ " ++ [31] ++ lit "dFrydrichas" ++ [31] ++ lit "aŠileris" ++ [30])
  ++ (lit "028@ " ++ [31] ++ lit "dFrydrychas" ++ [31] ++ lit "aŠileris" ++ [30])
  ++ (lit "028@ " ++ [31] ++ lit "dFrīdrīš" ++ [31] ++ lit "aŠīlir" ++ [30])
  ++ (lit "028@ " ++ [31] ++ lit "dFrīdrīš" ++ [31] ++ lit "cfūn" ++ [31] ++ lit "aŠīlir" ++ [30])
  ++ (lit "028@ " ++ [31] ++ lit "dFridrīk" ++ [31] ++ lit "aŠīlir" ++ [30])
  ++ (lit "028@ " ++ [31] ++ lit "dFrederik" ++ [31] ++ lit "cfon" ++ [31] ++ lit "aŞiller" ++ [30])
  ++ (lit "028@ " ++ [31] ++ lit "dFridricku" ++ [31] ++ lit "aSiller" ++ [30])
  ++ (lit "028@ " ++ [31] ++ lit "dFridrich" ++ [31] ++ lit "aŠiller" ++ [30])
  ++ (lit "028@ " ++ [31] ++ lit "dFridrih" ++ [31] ++ lit "aŠiller" ++ [30])
  ++ (lit "028@ " ++ [31] ++ lit "dBedřich" ++ [31] ++ lit "aŠiller" ++ [31] ++ lit "vtschechische Namensform" ++ [30])
  ++ (lit "028@ " ++ [31] ++ lit "dFridrix" ++ [31] ++ lit "aŠiller" ++ [30])
  ++ (lit "028@ " ++ [31] ++ lit "dFiredirix" ++ [31] ++ lit "aŠiller" ++ [31] ++ lit "vuigurisch" ++ [30])
  ++ (lit "028@ " ++ [31] ++ lit "dFr." ++ [31] ++ lit "aŠiller" ++ [30])
  ++ (lit "028@ " ++ [31] ++ lit "dF." ++ [31] ++ lit "aŠiller" ++ [30])
  ++ (lit "028@ " ++ [31] ++ lit "dIogann Christof Fridrich" ++ [31] ++ lit "aŠiller" ++ [30])
  ++ (lit "028@ " ++ [31] ++ lit "dPhrēntrich" ++ [31] ++ lit "aSiller" ++ [30])
  ++ (lit "028@ " ++ [31] ++ lit "dPhriderikos" ++ [31] ++ lit "aSiller" ++ [30])
  ++ (lit "028@ " ++ [31] ++ lit "PŠiller" ++ [30])
  ++ (lit "028@ " ++ [31] ++ lit "PŞiller" ++ [30])
  ++ (lit "028@ " ++ [31] ++ lit "dFr." ++ [31] ++ lit "aŠillers" ++ [30])
  ++ (lit "028@ " ++ [31] ++ lit "PŠīllir" ++ [30])
  ++ (lit "028@ " ++ [31] ++ lit "dP'ŭridŭrihi" ++ [31] ++ lit "aSillŏ" ++ [30])
  ++ (lit "028@ " ++ [31] ++ lit "PShih-lo" ++ [31] ++ lit "vchines. Namensform" ++ [30])
  ++ (lit "028@ " ++ [31] ++ lit "dYūhān Krīstuf Fridīk" ++ [31] ++ lit "cfun" ++ [31] ++ lit "aŠīlir" ++ [30])
  ++ (lit "028@ " ++ [31] ++ lit "dF." ++ [31] ++ lit "aSillr" ++ [30])
  ++ (lit "028@ " ++ [31] ++ lit "PSchyller" ++ [30])
  ++ (lit "028@ " ++ [31] ++ lit "PFu li de li xi Xi le" ++ [30])
  ++ (lit "028@ " ++ [31] ++ lit "PFulidelixi-Xile" ++ [30])
  ++ (lit "028@ " ++ [31] ++ lit "dFulidelixi" ++ [31] ++ lit "aXile" ++ [30])
  ++ (lit "028@ " ++ [31] ++ lit "PXile" ++ [30])
  ++ (lit "028@ " ++ [31] ++ lit "dFridrikh" ++ [31] ++ lit "aShiler" ++ [30])
  ++ (lit "028@ " ++ [31] ++ lit "dFridrikh" ++ [31] ++ lit "aShiller" ++ [30])
  ++ (lit "028@ " ++ [31] ++ lit "dF." ++ [31] ++ lit "aSinle" ++ [30])
  ++ (lit "028@ " ++ [31] ++ lit "dPiririx" ++ [31] ++ lit "aSileri" ++ [30])
  ++ (lit "028@ " ++ [31] ++ lit "dPʹridrix" ++ [31] ++ lit "aŠileri" ++ [30])
  ++ (lit "028@ " ++ [31] ++ lit "dPiaeuridaeurihi" ++ [31] ++ lit "aSwillaeo" ++ [30])
  ++ (lit "028@ " ++ [31] ++ lit "dFrydrych" ++ [31] ++ lit "a0̆yler" ++ [30])
  ++ (lit "028@ " ++ [31] ++ lit "dFryderyk" ++ [31] ++ lit "aSzyller" ++ [30])
  ++ (lit "028@ " ++ [31] ++ lit "dFarīdrīk" ++ [31] ++ lit "aŠīlar" ++ [30])
  ++ (lit "028@ " ++ [31] ++ lit "PY." ++ [30])
  ++ (lit "028@ " ++ [31] ++ lit "PHsi-le" ++ [30])
  ++ (lit "028@ " ++ [31] ++ lit "PHsi-lo" ++ [30])
  ++ (lit "028@ " ++ [31] ++ lit "dFridriẖ" ++ [31] ++ lit "aŠiller" ++ [30])
  ++ (lit "028@ " ++ [31] ++ lit "PHogarth" ++ [31] ++ lit "4pseu" ++ [30])
  ++ (lit "028@ " ++ [31] ++ lit "dFridrichẏ" ++ [31] ++ lit "aŠiller" ++ [31] ++ lit "vosset. Namensform" ++ [30])
  ++ (lit "028@ " ++ [31] ++ lit "dFrydrych" ++ [31] ++ lit "aŠyler" ++ [30])
  ++ (lit "028@ " ++ [31] ++ lit "dFurīdorihi" ++ [31] ++ lit "cfon" ++ [31] ++ lit "aShirā" ++ [30])
  ++ (lit "028@ " ++ [31] ++ lit "dMiroslav" ++ [31] ++ lit "aŠiler" ++ [30])
  ++ (lit "028@ " ++ [31] ++ lit "T01" ++ [31] ++ lit "UHans" ++ [31] ++ lit "P弗里德里希·席勒" ++ [31] ++ lit "5DE-576" ++ [30])
  ++ (lit "028@ " ++ [31] ++ lit "T01" ++ [31] ++ lit "UHans" ++ [31] ++ lit "P席勒" ++ [30])
  ++ (lit "028@ " ++ [31] ++ lit "T01" ++ [31] ++ lit "UCyrl" ++ [31] ++ lit "Lmac" ++ [31] ++ lit "dФридрих" ++ [31] ++ lit "aШилер" ++ [30])
  ++ (lit "028@ " ++ [31] ++ lit "T01" ++ [31] ++ lit "UCyrl" ++ [31] ++ lit "Lbel" ++ [31] ++ lit "dФрыдрых" ++ [31] ++ lit "aШылер" ++ [30])
  ++ (lit "028A " ++ [31] ++ lit "dFriedrich" ++ [31] ++ lit "aSchiller" ++ [30])
  ++ (lit "028P " ++ [31] ++ lit "dFriedrich" ++ [31] ++ lit "aSchiller" ++ [31] ++ lit "SDLC" ++ [31] ++ lit "0n 79111538" ++ [31] ++ lit "2naf" ++ [31] ++ lit "v1759-1805" ++ [30])
  ++ (lit "028P " ++ [31] ++ lit "T01" ++ [31] ++ lit "UCyrl" ++ [31] ++ lit "dФ." ++ [31] ++ lit "aШиллер" ++ [30])
  ++ (lit "028P " ++ [31] ++ lit "T01" ++ [31] ++ lit "UCyrl" ++ [31] ++ lit "Lmac" ++ [31] ++ lit "dФридрих" ++ [31] ++ lit "aШилер" ++ [31] ++ lit "vOriginal" ++ [30])
  ++ (lit "028P " ++ [31] ++ lit "T01" ++ [31] ++ lit "UKore" ++ [31] ++ lit "d프리드리히" ++ [31] ++ lit "a실러" ++ [31] ++ lit "5DE-576" ++ [30])
  ++ (lit "028P " ++ [31] ++ lit "T01" ++ [31] ++ lit "UHans" ++ [31] ++ lit "d弗里德里希" ++ [31] ++ lit "a席勒" ++ [31] ++ lit "5DE-576" ++ [30])
  ++ (lit "028P " ++ [31] ++ lit "T01" ++ [31] ++ lit "UHebr" ++ [31] ++ lit "dפרידריך" ++ [31] ++ lit "aשילר" ++ [31] ++ lit "5DE-576" ++ [30])
  ++ (lit "028P " ++ [31] ++ lit "T01" ++ [31] ++ lit "UArab" ++ [31] ++ lit "Luig" ++ [31] ++ lit "dڧىرېدىرى" ++ [31] ++ lit "aشىللېر" ++ [30])
  ++ (lit "028P " ++ [31] ++ lit "T01" ++ [31] ++ lit "UCyrl" ++ [31] ++ lit "Lbel" ++ [31] ++ lit "dФрыдрых" ++ [31] ++ lit "aШылер" ++ [31] ++ lit "vOriginal" ++ [30])
  ++ (lit "028R " ++ [31] ++ lit "9119072769" ++ [31] ++ lit "7Tp1" ++ [31] ++ lit "Vpiz" ++ [31] ++ lit "Agnd" ++ [31] ++ lit "0119072769" ++ [31] ++ lit "E1723" ++ [31] ++ lit "G1796" ++ [31] ++ lit "dJohann Caspar" ++ [31] ++ lit "aSchiller" ++ [31] ++ lit "4bezf" ++ [31] ++ lit "vVater" ++ [30])
  ++ (lit "028R " ++ [31] ++ lit "911879499X" ++ [31] ++ lit "7Tp1" ++ [31] ++ lit "Vpiz" ++ [31] ++ lit "Agnd" ++ [31] ++ lit "011879499X" ++ [31] ++ lit "E1732" ++ [31] ++ lit "G1801" ++ [31] ++ lit "dElisabetha Dorothea" ++ [31] ++ lit "aSchiller" ++ [31] ++ lit "4bezf" ++ [31] ++ lit "vMutter" ++ [30])
  ++ (lit "028R " ++ [31] ++ lit "910105128X" ++ [31] ++ lit "7Tp1" ++ [31] ++ lit "Vpiz" ++ [31] ++ lit "Agnd" ++ [31] ++ lit "010105128X" ++ [31] ++ lit "E1760" ++ [31] ++ lit "G1818" ++ [31] ++ lit "dLudwig Friedrich" ++ [31] ++ lit "aGrub" ++ [31] ++ lit "4beza" ++ [31] ++ lit "vMitschüler" ++ [30])
  ++ (lit "028R " ++ [31] ++ lit "91012276740" ++ [31] ++ lit "7Tp1" ++ [31] ++ lit "Vpiz" ++ [31] ++ lit "Agnd" ++ [31] ++ lit "01012276740" ++ [31] ++ lit "E1759" ++ [31] ++ lit "G1791" ++ [31] ++ lit "dFranz Joseph" ++ [31] ++ lit "aKapf" ++ [31] ++ lit "4beza" ++ [31] ++ lit "vFreund" ++ [30])
  ++ (lit "028R " ++ [31] ++ lit "91079186107" ++ [31] ++ lit "7Tp3" ++ [31] ++ lit "Vpiz" ++ [31] ++ lit "Agnd" ++ [31] ++ lit "01079186107" ++ [31] ++ lit "E1759" ++ [31] ++ lit "G1781" ++ [31] ++ lit "dJohann Christian" ++ [31] ++ lit "aWeckerlin" ++ [31] ++ lit "4beza" ++ [31] ++ lit "vFreund" ++ [30])
  ++ (lit "028R " ++ [31] ++ lit "9118754971" ++ [31] ++ lit "7Tp1" ++ [31] ++ lit "Vpiz" ++ [31] ++ lit "Agnd" ++ [31] ++ lit "0118754971" ++ [31] ++ lit "E1766" ++ [31] ++ lit "G1826" ++ [31] ++ lit "dCharlotte" ++ [31] ++ lit "aSchiller" ++ [31] ++ lit "cvon" ++ [31] ++ lit "4bezf" ++ [31] ++ lit "vEhefrau seit 1790" ++ [30])
  ++ (lit "028R " ++ [31] ++ lit "9117267953" ++ [31] ++ lit "7Tp1" ++ [31] ++ lit "Vpiz" ++ [31] ++ lit "Agnd" ++ [31] ++ lit "0117267953" ++ [31] ++ lit "E1793" ++ [31] ++ lit "G1857" ++ [31] ++ lit "dKarl" ++ [31] ++ lit "aSchiller" ++ [31] ++ lit "4bezf" ++ [31] ++ lit "vSohn" ++ [30])
  ++ (lit "028R " ++ [31] ++ lit "9117267090" ++ [31] ++ lit "7Tp1" ++ [31] ++ lit "Vpiz" ++ [31] ++ lit "Agnd" ++ [31] ++ lit "0117267090" ++ [31] ++ lit "E1796" ++ [31] ++ lit "G1841" ++ [31] ++ lit "dErnst" ++ [31] ++ lit "aSchiller" ++ [31] ++ lit "cvon" ++ [31] ++ lit "4bezf" ++ [31] ++ lit "vSohn" ++ [30])
  ++ (lit "028R " ++ [31] ++ lit "9116657979" ++ [31] ++ lit "7Tp1" ++ [31] ++ lit "Vpiz" ++ [31] ++ lit "Agnd" ++ [31] ++ lit "0116657979" ++ [31] ++ lit "E1804" ++ [31] ++ lit "G1872" ++ [31] ++ lit "dEmilie" ++ [31] ++ lit "aGleichen-Russwurm" ++ [31] ++ lit "cvon" ++ [31] ++ lit "4bezf" ++ [31] ++ lit "vTochter" ++ [30])
  ++ (lit "028R " ++ [31] ++ lit "9116658002" ++ [31] ++ lit "7Tp1" ++ [31] ++ lit "Vpiz" ++ [31] ++ lit "Agnd" ++ [31] ++ lit "0116658002" ++ [31] ++ lit "E1803" ++ [31] ++ lit "G1887" ++ [31] ++ lit "dHeinrich Adalbert" ++ [31] ++ lit "aGleichen-Russwurm" ++ [31] ++ lit "cvon" ++ [31] ++ lit "4bezf" ++ [31] ++ lit "vSchwiegersohn" ++ [30])
  ++ (lit "028R " ++ [31] ++ lit "9119371456" ++ [31] ++ lit "7Tp1" ++ [31] ++ lit "Vpiz" ++ [31] ++ lit "Agnd" ++ [31] ++ lit "0119371456" ++ [31] ++ lit "E1865" ++ [31] ++ lit "G1947" ++ [31] ++ lit "dAlexander" ++ [31] ++ lit "aGleichen-Rußwurm" ++ [31] ++ lit "lFreiherr von" ++ [31] ++ lit "4bezf" ++ [31] ++ lit "vUrenkel" ++ [30])
  ++ (lit "028R " ++ [31] ++ lit "9118771272" ++ [31] ++ lit "7Tp1" ++ [31] ++ lit "Vpiz" ++ [31] ++ lit "Agnd" ++ [31] ++ lit "0118771272" ++ [31] ++ lit "E1763" ++ [31] ++ lit "G1847" ++ [31] ++ lit "dKaroline" ++ [31] ++ lit "aWolzogen" ++ [31] ++ lit "cvon" ++ [31] ++ lit "4bezf" ++ [31] ++ lit "vSchwägerin" ++ [30])
  ++ (lit "028R " ++ [31] ++ lit "9135995310" ++ [31] ++ lit "7Tp1" ++ [31] ++ lit "Vpif" ++ [31] ++ lit "Agnd" ++ [31] ++ lit "0135995310" ++ [31] ++ lit "D16. Jh." ++ [31] ++ lit "PUschalk" ++ [31] ++ lit "lFamilie" ++ [31] ++ lit "4bezf" ++ [31] ++ lit "vVorfahren" ++ [30])
  ++ (lit "028R " ++ [31] ++ lit "9118540238" ++ [31] ++ lit "7Tpz" ++ [31] ++ lit "Vpiz" ++ [31] ++ lit "Agnd" ++ [31] ++ lit "0118540238" ++ [31] ++ lit "E1749" ++ [31] ++ lit "G1832" ++ [31] ++ lit "dJohann Wolfgang" ++ [31] ++ lit "aGoethe" ++ [31] ++ lit "cvon" ++ [31] ++ lit "4beza" ++ [30])
  ++ (lit "028R " ++ [31] ++ lit "911852240X" ++ [31] ++ lit "7Tp1" ++ [31] ++ lit "Vpiz" ++ [31] ++ lit "Agnd" ++ [31] ++ lit "011852240X" ++ [31] ++ lit "E1764" ++ [31] ++ lit "G1832" ++ [31] ++ lit "dJohann Friedrich" ++ [31] ++ lit "aCotta" ++ [31] ++ lit "cvon" ++ [31] ++ lit "4bezb" ++ [30])
  ++ (lit "028R " ++ [31] ++ lit "9117240281" ++ [31] ++ lit "7Tp1" ++ [31] ++ lit "Vpiz" ++ [31] ++ lit "Agnd" ++ [31] ++ lit "0117240281" ++ [31] ++ lit "E1799" ++ [31] ++ lit "G1850" ++ [31] ++ lit "dCaroline Friederike Luise" ++ [31] ++ lit "aJunot" ++ [31] ++ lit "4bezf" ++ [31] ++ lit "vTochter" ++ [30])
  ++ (lit "028R " ++ [31] ++ lit "91012273571" ++ [31] ++ lit "7Tp1" ++ [31] ++ lit "Vpiz" ++ [31] ++ lit "Agnd" ++ [31] ++ lit "01012273571" ++ [31] ++ lit "E1756" ++ [31] ++ lit "G1840" ++ [31] ++ lit "dAnna" ++ [31] ++ lit "aHölzel" ++ [31] ++ lit "4beza" ++ [31] ++ lit "vBekannte" ++ [30])
  ++ (lit "029R " ++ [31] ++ lit "9962527017" ++ [31] ++ lit "7Tb1" ++ [31] ++ lit "Vkiz" ++ [31] ++ lit "Agnd" ++ [31] ++ lit "06018412-7" ++ [31] ++ lit "aSchillers Geburtshaus" ++ [31] ++ lit "4affi" ++ [30])
  ++ (lit "029R " ++ [31] ++ lit "9007121741" ++ [31] ++ lit "7Tb1" ++ [31] ++ lit "Vkiz" ++ [31] ++ lit "Agnd" ++ [31] ++ lit "02060690-4" ++ [31] ++ lit "aGrossherzogliches Hof- und Nationaltheater Mannheim" ++ [31] ++ lit "4affi" ++ [31] ++ lit "vHausdichter" ++ [31] ++ lit "Z01.09.1783 - August 1784" ++ [30])
  ++ (lit "032T " ++ [31] ++ lit "am" ++ [30])
  ++ (lit "041R " ++ [31] ++ lit "9040533093" ++ [31] ++ lit "7Tsz" ++ [31] ++ lit "Vsaz" ++ [31] ++ lit "Agnd" ++ [31] ++ lit "04053309-8" ++ [31] ++ lit "aSchriftsteller" ++ [31] ++ lit "4berc" ++ [30])
  ++ (lit "041R " ++ [31] ++ lit "9041402413" ++ [31] ++ lit "7Ts1" ++ [31] ++ lit "Vsaz" ++ [31] ++ lit "Agnd" ++ [31] ++ lit "04140241-8" ++ [31] ++ lit "aDramatiker" ++ [31] ++ lit "4beru" ++ [30])
  ++ (lit "041R " ++ [31] ++ lit "9041529677" ++ [31] ++ lit "7Ts1" ++ [31] ++ lit "Vsaz" ++ [31] ++ lit "Agnd" ++ [31] ++ lit "04152967-4" ++ [31] ++ lit "aErzähler" ++ [31] ++ lit "4beru" ++ [30])
  ++ (lit "041R " ++ [31] ++ lit "9040250989" ++ [31] ++ lit "7Ts1" ++ [31] ++ lit "Vsaz" ++ [31] ++ lit "Agnd" ++ [31] ++ lit "04025098-2" ++ [31] ++ lit "aHistoriker" ++ [31] ++ lit "4beru" ++ [30])
  ++ (lit "041R " ++ [31] ++ lit "9040252434" ++ [31] ++ lit "7Ts1" ++ [31] ++ lit "Vsaz" ++ [31] ++ lit "Agnd" ++ [31] ++ lit "04025243-7" ++ [31] ++ lit "aHochschullehrer" ++ [31] ++ lit "4beru" ++ [30])
  ++ (lit "041R " ++ [31] ++ lit "9041675649" ++ [31] ++ lit "7Ts1" ++ [31] ++ lit "Vsaz" ++ [31] ++ lit "Agnd" ++ [31] ++ lit "04167564-2" ++ [31] ++ lit "aLibrettist" ++ [31] ++ lit "4beru" ++ [30])
  ++ (lit "041R " ++ [31] ++ lit "9040765709" ++ [31] ++ lit "7Ts1" ++ [31] ++ lit "Vsaz" ++ [31] ++ lit "Agnd" ++ [31] ++ lit "04076570-2" ++ [31] ++ lit "aRechtswissenschaft" ++ [31] ++ lit "4stud" ++ [30])
  ++ (lit "041R " ++ [31] ++ lit "9040382435" ++ [31] ++ lit "7Tsz" ++ [31] ++ lit "Vsaz" ++ [31] ++ lit "Agnd" ++ [31] ++ lit "04038243-6" ++ [31] ++ lit "aMedizin" ++ [31] ++ lit "4stud" ++ [30])
  ++ (lit "042A " ++ [31] ++ lit "a12.2p" ++ [31] ++ lit "a16.1p" ++ [30])
  ++ (lit "042B " ++ [31] ++ lit "aXA-DE" ++ [30])
  ++ (lit "042C " ++ [31] ++ lit "ager" ++ [30])
  ++ (lit "046G " ++ [31] ++ lit "aDie Braut von Messina, oder die feindlichen Brüder" ++ [31] ++ lit "f1803" ++ [30])
  ++ (lit "046G " ++ [31] ++ lit "aBriefe an den Freyherrn Heribert von Dalberg" ++ [31] ++ lit "f1819" ++ [30])
  ++ (lit "046G " ++ [31] ++ lit "aBriefwechsel zwischen Schiller und Göthe. - 1828 - 1829" ++ [30])
  ++ (lit "046G " ++ [31] ++ lit "aBriefwechsel zwischen Schiller und Wilhelm von Humboldt" ++ [31] ++ lit "f1830" ++ [30])
  ++ (lit "046G " ++ [31] ++ lit "aDon Carlos" ++ [31] ++ lit "f1804" ++ [30])
  ++ (lit "046G " ++ [31] ++ lit "aGedichte. - 1807 - 1808" ++ [30])
  ++ (lit "047A/03 " ++ [31] ++ lit "eDE-101" ++ [30])
  ++ (lit "047A/03 " ++ [31] ++ lit "rDE-101" ++ [30])
  ++ (lit "047C " ++ [31] ++ lit "Spnd" ++ [31] ++ lit "ia" ++ [31] ++ lit "aSchiller, Friedrich" ++ [31] ++ lit "0118607626" ++ [30])
  ++ (lit "047C " ++ [31] ++ lit "Spnd" ++ [31] ++ lit "ia" ++ [31] ++ lit "aSchiller, Friedrich" ++ [31] ++ lit "017404092X" ++ [30])
  ++ (lit "047C " ++ [31] ++ lit "Spnd" ++ [31] ++ lit "ia" ++ [31] ++ lit "aSchiller, Friedrich" ++ [31] ++ lit "0174166745" ++ [30])
  ++ (lit "047C " ++ [31] ++ lit "Spnd" ++ [31] ++ lit "ia" ++ [31] ++ lit "aSchiller, Friedrich /von" ++ [31] ++ lit "0189458372" ++ [30])
  ++ (lit "047C " ++ [31] ++ lit "Spnd" ++ [31] ++ lit "ia" ++ [31] ++ lit "aSchiller, Friedrich von" ++ [31] ++ lit "0159164559" ++ [30])
  ++ (lit "050C " ++ [31] ++ lit "a12" ++ [30])
  ++ (lit "050C " ++ [31] ++ lit "a7" ++ [30])
  ++ (lit "050C " ++ [31] ++ lit "a384" ++ [30])
  ++ (lit "050C " ++ [31] ++ lit "aOENAK" ++ [30])
  ++ (lit "050C " ++ [31] ++ lit "aDBSM" ++ [30])
  ++ (lit "050C " ++ [31] ++ lit "aVD-18" ++ [30])
  ++ (lit "050C " ++ [31] ++ lit "aLABI-BW-WLB" ++ [30])
  ++ (lit "050C " ++ [31] ++ lit "aBuchbesitz: HAAB Weimar" ++ [30])
  ++ (lit "050C " ++ [31] ++ lit "aHogarth ist ein Pseud. von Friedrich Schiller" ++ [30])
  ++ (lit "050C " ++ [31] ++ lit "aSAEBI" ++ [31] ++ lit "5DE-14" ++ [30])
  ++ (lit "050C " ++ [31] ++ lit "aPacelli-Edition" ++ [30])
  ++ (lit "050E " ++ [31] ++ lit "aWikipedia" ++ [30])
  ++ (lit "050E " ++ [31] ++ lit "aDbA (WBIS)" ++ [30])
  ++ (lit "050E " ++ [31] ++ lit "aDeutsche Biographie" ++ [31] ++ lit "uhttp://www.deutsche-biographie.de" ++ [30])
  ++ (lit "050E " ++ [31] ++ lit "aLandesbibliographie Baden-Württemberg" ++ [30])
  ++ (lit "050E " ++ [31] ++ lit "aProvenienzmerkmal" ++ [30])
  ++ (lit "050E " ++ [31] ++ lit "aVorlage" ++ [30])
  ++ (lit "050E " ++ [31] ++ lit "aLCAuth/GND" ++ [30])
  ++ (lit "050E " ++ [31] ++ lit "aHomepage" ++ [31] ++ lit "bStand: 19.03.2020" ++ [31] ++ lit "uhttp://www.pacelli-edition.de/Biographie/9527" ++ [30])
  ++ (lit "050E " ++ [31] ++ lit "aMARCHIVUM" ++ [31] ++ lit "bStand:11.07.2022" ++ [31] ++ lit "uhttps://scope.mannheim.de/detail.aspx?ID=780658" ++ [30])
  ++ (lit "050G " ++ [31] ++ lit "b1789 Professor für Geschichte in Jena; 1802 nobilitiert" ++ [30])
  ++ (lit "060R " ++ [31] ++ lit "a1759" ++ [31] ++ lit "b1805" ++ [31] ++ lit "4datl" ++ [30])
  ++ (lit "060R " ++ [31] ++ lit "a10.11.1759" ++ [31] ++ lit "b09.05.1805" ++ [31] ++ lit "4datx" ++ [30])
  ++ (lit "065R " ++ [31] ++ lit "9040374432" ++ [31] ++ lit "7Tg1" ++ [31] ++ lit "Vgik" ++ [31] ++ lit "Agnd" ++ [31] ++ lit "04037443-9" ++ [31] ++ lit "aMarbach am Neckar" ++ [31] ++ lit "4ortg" ++ [30])
  ++ (lit "065R " ++ [31] ++ lit "9040651053" ++ [31] ++ lit "7Tg1" ++ [31] ++ lit "Vgik" ++ [31] ++ lit "Agnd" ++ [31] ++ lit "04065105-8" ++ [31] ++ lit "aWeimar" ++ [31] ++ lit "4orts" ++ [30])
  ++ (lit "065R " ++ [31] ++ lit "904028557X" ++ [31] ++ lit "7Tg1" ++ [31] ++ lit "Vgik" ++ [31] ++ lit "Agnd" ++ [31] ++ lit "04028557-1" ++ [31] ++ lit "aJena" ++ [31] ++ lit "4ortw" ++ [30])
  ++ (lit "065R " ++ [31] ++ lit "904037372X" ++ [31] ++ lit "7Tg1" ++ [31] ++ lit "Vgik" ++ [31] ++ lit "Agnd" ++ [31] ++ lit "04037372-1" ++ [31] ++ lit "aMannheim" ++ [31] ++ lit "4ortw" ++ [30])
  ++ (lit "070A/02 " ++ [31] ++ lit "SDE-Wi17FP" ++ [31] ++ lit "076DC042C1C20404EB780B3BA8A3B1BA7" ++ [30])
  ++ (lit "070A/03 " ++ [31] ++ lit "SDE-101" ++ [31] ++ lit "0118607626" ++ [30])
  ++ [10].

(** /repo/tests/data/DUMP.dat.gz, decompressed, line 3 *)
Definition dump_3 : bytes :=
  (lit "001A " ++ [31] ++ lit "01250:01-07-88" ++ [30])
  ++ (lit "001B " ++ [31] ++ lit "00032:28-09-22" ++ [31] ++ lit "t11:50:57.000" ++ [30])
  ++ (lit "001D " ++ [31] ++ lit "09999:17-01-09" ++ [30])
  ++ (lit "001U " ++ [31] ++ lit "0utf8" ++ [30])
  ++ (lit "001X " ++ [31] ++ lit "00" ++ [30])
  ++ (lit "002@ " ++ [31] ++ lit "0Tu1" ++ [30])
  ++ (lit "003@ " ++ [31] ++ lit "0040993396" ++ [30])
  ++ (lit "003U " ++ [31] ++ lit "ahttp://d-nb.info/gnd/4099339-5" ++ [30])
  ++ (lit "004B " ++ [31] ++ lit "awit" ++ [30])
  ++ (lit "007K " ++ [31] ++ lit "agnd" ++ [31] ++ lit "04099339-5" ++ [30])
  ++ (lit "007N " ++ [31] ++ lit "aswd" ++ [31] ++ lit "04099339-5" ++ [31] ++ lit "vzg" ++ [30])
  ++ (lit "008A " ++ [31] ++ lit "as" ++ [31] ++ lit "af" ++ [30])
  ++ (lit "008B " ++ [31] ++ lit "aw" ++ [31] ++ lit "ao" ++ [31] ++ lit "av" ++ [30])
  ++ (lit "010E " ++ [31] ++ lit "erda" ++ [30])
  ++ (lit "022@ " ++ [31] ++ lit "aDie @Rauber" ++ [30])
  ++ (lit "022@ " ++ [31] ++ lit "aDie @Rauber : Ein Schauspiel" ++ [31] ++ lit "4tmzu" ++ [31] ++ lit "5DE-32" ++ [30])
  ++ (lit "022@ " ++ [31] ++ lit "aRāhzanān" ++ [30])
  ++ (lit "022@ " ++ [31] ++ lit "aLos @bandidos" ++ [30])
  ++ (lit "022@ " ++ [31] ++ lit "aZbojníci" ++ [30])
  ++ (lit "022@ " ++ [31] ++ lit "aThe @robbers" ++ [30])
  ++ (lit "022@ " ++ [31] ++ lit "aRazbojnici" ++ [30])
  ++ (lit "022@ " ++ [31] ++ lit "aRazbojniki" ++ [30])
  ++ (lit "022@ " ++ [31] ++ lit "aLoupežníci" ++ [30])
  ++ (lit "022@ " ++ [31] ++ lit "aRøverne" ++ [30])
  ++ (lit "022@ " ++ [31] ++ lit "aI @masnadieri" ++ [30])
  ++ (lit "022@ " ++ [31] ++ lit "aGuntô" ++ [30])
  ++ (lit "022@ " ++ [31] ++ lit "aZbójcy" ++ [30])
  ++ (lit "022@ " ++ [31] ++ lit "aQiangdao" ++ [30])
  ++ (lit "022@ " ++ [31] ++ lit "aEls @bandits" ++ [30])
  ++ (lit "022@ " ++ [31] ++ lit "aIls @birbants" ++ [30])
  ++ (lit "022@ " ++ [31] ++ lit "aLes @brigands" ++ [30])
  ++ (lit "022@ " ++ [31] ++ lit "aCh'iang tao" ++ [30])
  ++ (lit "022@ " ++ [31] ++ lit "aal-Luṣūṣ" ++ [30])
  ++ (lit "022@ " ++ [31] ++ lit "aהשודדים" ++ [30])
  ++ (lit "022@ " ++ [31] ++ lit "aRöfvarbandet" ++ [30])
  ++ (lit "022@ " ++ [31] ++ lit "aLa @rabistoj" ++ [30])
  ++ (lit "022@ " ++ [31] ++ lit "aRosvot" ++ [30])
  ++ (lit "022@ " ++ [31] ++ lit "aNh~ung tên cu'ó'p tâp kich" ++ [30])
  ++ (lit "022@ " ++ [31] ++ lit "aLaupītāji" ++ [30])
  ++ (lit "022@ " ++ [31] ++ lit "aOi @lēstes" ++ [30])
  ++ (lit "022A " ++ [31] ++ lit "aDie @Räuber" ++ [30])
  ++ (lit "022R " ++ [31] ++ lit "9040991997" ++ [31] ++ lit "7Tpz" ++ [31] ++ lit "Vpiz" ++ [31] ++ lit "Agnd" ++ [31] ++ lit "0118540238" ++ [31] ++ lit "E1749" ++ [31] ++ lit "G1832" ++ [31] ++ lit "dJohann Wolfgang" ++ [31] ++ lit "aGoethe" ++ [31] ++ lit "cvon" ++ [31] ++ lit "7Tu1" ++ [31] ++ lit "Vwit" ++ [31] ++ lit "Agnd" ++ [31] ++ lit "04099199-4" ++ [31] ++ lit "tGötz von Berlichingen" ++ [31] ++ lit "4vorl" ++ [31] ++ lit "vAngeregt durch" ++ [30])
  ++ (lit "022R " ++ [31] ++ lit "91189948788" ++ [31] ++ lit "7Tp1" ++ [31] ++ lit "Vpiz" ++ [31] ++ lit "Agnd" ++ [31] ++ lit "0118607626" ++ [31] ++ lit "E1759" ++ [31] ++ lit "G1805" ++ [31] ++ lit "dFriedrich" ++ [31] ++ lit "aSchiller" ++ [31] ++ lit "7Tu3" ++ [31] ++ lit "Vwit" ++ [31] ++ lit "Agnd" ++ [31] ++ lit "01189948788" ++ [31] ++ lit "tTrauerspiele" ++ [31] ++ lit "4obpa" ++ [31] ++ lit "vEnthalten in" ++ [30])
  ++ (lit "022R " ++ [31] ++ lit "9948360364" ++ [31] ++ lit "7Tp1" ++ [31] ++ lit "Vpiz" ++ [31] ++ lit "Agnd" ++ [31] ++ lit "0118541102" ++ [31] ++ lit "E1801" ++ [31] ++ lit "G1836" ++ [31] ++ lit "dChristian Dietrich" ++ [31] ++ lit "aGrabbe" ++ [31] ++ lit "7Tu1" ++ [31] ++ lit "Vwit" ++ [31] ++ lit "Agnd" ++ [31] ++ lit "04420614-8" ++ [31] ++ lit "tHerzog Theodor von Gothland" ++ [31] ++ lit "4rela" ++ [31] ++ lit "vAnregung für" ++ [30])
  ++ (lit "022R " ++ [31] ++ lit "91207493201" ++ [31] ++ lit "7Tp1" ++ [31] ++ lit "Vpiz" ++ [31] ++ lit "Agnd" ++ [31] ++ lit "0119916044X" ++ [31] ++ lit "E1982" ++ [31] ++ lit "dLeonie" ++ [31] ++ lit "aBöhm" ++ [31] ++ lit "7Tu3" ++ [31] ++ lit "Vwit" ++ [31] ++ lit "Agnd" ++ [31] ++ lit "01207493201" ++ [31] ++ lit "tDie @Räuberinnen" ++ [31] ++ lit "4rela" ++ [31] ++ lit "vAnregung für" ++ [30])
  ++ (lit "022R " ++ [31] ++ lit "9123852558X" ++ [31] ++ lit "7Tp1" ++ [31] ++ lit "Vpiz" ++ [31] ++ lit "Agnd" ++ [31] ++ lit "0102583710X" ++ [31] ++ lit "E1987" ++ [31] ++ lit "dBonn" ++ [31] ++ lit "aPark" ++ [31] ++ lit "7Tu3" ++ [31] ++ lit "Vwit" ++ [31] ++ lit "Agnd" ++ [31] ++ lit "0123852558X" ++ [31] ++ lit "tDie @Räuber der Herzen" ++ [31] ++ lit "4rela" ++ [31] ++ lit "vAnregung für" ++ [30])
  ++ (lit "022R " ++ [31] ++ lit "91253091064" ++ [31] ++ lit "7Tp1" ++ [31] ++ lit "Vpiz" ++ [31] ++ lit "Agnd" ++ [31] ++ lit "0118607626" ++ [31] ++ lit "E1759" ++ [31] ++ lit "G1805" ++ [31] ++ lit "dFriedrich" ++ [31] ++ lit "aSchiller" ++ [31] ++ lit "7Tu3" ++ [31] ++ lit "Vwit" ++ [31] ++ lit "Agnd" ++ [31] ++ lit "01253091064" ++ [31] ++ lit "tDie @Braut in Trauer" ++ [31] ++ lit "4rela" ++ [31] ++ lit "vFortsetzung geplant als" ++ [30])
  ++ (lit "022R " ++ [31] ++ lit "9300165927" ++ [31] ++ lit "7Tp1" ++ [31] ++ lit "Vpiz" ++ [31] ++ lit "Agnd" ++ [31] ++ lit "0118626523" ++ [31] ++ lit "E1813" ++ [31] ++ lit "G1901" ++ [31] ++ lit "dGiuseppe" ++ [31] ++ lit "aVerdi" ++ [31] ++ lit "7Tu1" ++ [31] ++ lit "Vwim" ++ [31] ++ lit "Agnd" ++ [31] ++ lit "0300165927" ++ [31] ++ lit "tI @masnadieri" ++ [31] ++ lit "4rela" ++ [31] ++ lit "vBearbeitet als Oper" ++ [30])
  ++ (lit "022R " ++ [31] ++ lit "91152282611" ++ [31] ++ lit "7Tp1" ++ [31] ++ lit "Vpip" ++ [31] ++ lit "Agnd" ++ [31] ++ lit "0118979973" ++ [31] ++ lit "E1761" ++ [31] ++ lit "G1830" ++ [31] ++ lit "dJean Henri Ferdinand" ++ [31] ++ lit "aLa Martelière" ++ [31] ++ lit "7Tu3" ++ [31] ++ lit "Vwit" ++ [31] ++ lit "Agnd" ++ [31] ++ lit "01152282611" ++ [31] ++ lit "tRobert chef de brigands" ++ [31] ++ lit "4rela" ++ [31] ++ lit "vBearbeitet als" ++ [30])
  ++ (lit "022R " ++ [31] ++ lit "91154622231" ++ [31] ++ lit "7Tp1" ++ [31] ++ lit "Vpiz" ++ [31] ++ lit "Agnd" ++ [31] ++ lit "0128388641" ++ [31] ++ lit "E1955" ++ [31] ++ lit "G2020" ++ [31] ++ lit "dBarbara" ++ [31] ++ lit "aKindermann" ++ [31] ++ lit "7Tu3" ++ [31] ++ lit "Vwit" ++ [31] ++ lit "Agnd" ++ [31] ++ lit "01154622231" ++ [31] ++ lit "tDie @Räuber" ++ [31] ++ lit "4rela" ++ [31] ++ lit "vBearbeitet als Bilderbuch" ++ [30])
  ++ (lit "022R " ++ [31] ++ lit "996389790X" ++ [31] ++ lit "7Tp1" ++ [31] ++ lit "Vpiz" ++ [31] ++ lit "Agnd" ++ [31] ++ lit "0118534793" ++ [31] ++ lit "E1882" ++ [31] ++ lit "G1961" ++ [31] ++ lit "dLeonhard" ++ [31] ++ lit "aFrank" ++ [31] ++ lit "7Tu1" ++ [31] ++ lit "Vwit" ++ [31] ++ lit "Agnd" ++ [31] ++ lit "04674791-6" ++ [31] ++ lit "tDie @Räuberbande" ++ [31] ++ lit "4rela" ++ [31] ++ lit "vAnregung für" ++ [30])
  ++ (lit "022R " ++ [31] ++ lit "9986959669" ++ [31] ++ lit "7Tp1" ++ [31] ++ lit "Vpiz" ++ [31] ++ lit "Agnd" ++ [31] ++ lit "0118938533" ++ [31] ++ lit "E1776" ++ [31] ++ lit "G1841" ++ [31] ++ lit "dIgnaz Xaver" ++ [31] ++ lit "aSeyfried" ++ [31] ++ lit "cvon" ++ [31] ++ lit "7Tu1" ++ [31] ++ lit "Vwim" ++ [31] ++ lit "Agnd" ++ [31] ++ lit "07595268-3" ++ [31] ++ lit "tDie Räuber" ++ [31] ++ lit "4rela" ++ [31] ++ lit "vBühnenmusik" ++ [30])
  ++ (lit "022R " ++ [31] ++ lit "9986957593" ++ [31] ++ lit "7Tp1" ++ [31] ++ lit "Vpiz" ++ [31] ++ lit "Agnd" ++ [31] ++ lit "0118599100" ++ [31] ++ lit "E1752" ++ [31] ++ lit "G1814" ++ [31] ++ lit "dJohann Friedrich" ++ [31] ++ lit "aReichardt" ++ [31] ++ lit "7Tu1" ++ [31] ++ lit "Vwim" ++ [31] ++ lit "Agnd" ++ [31] ++ lit "07595247-6" ++ [31] ++ lit "tDie @Räuber" ++ [31] ++ lit "4rela" ++ [31] ++ lit "vBühnenmusik" ++ [30])
  ++ (lit "022R " ++ [31] ++ lit "998650534X" ++ [31] ++ lit "7Tp1" ++ [31] ++ lit "Vpiz" ++ [31] ++ lit "Agnd" ++ [31] ++ lit "0117389102" ++ [31] ++ lit "E1862" ++ [31] ++ lit "G1936" ++ [31] ++ lit "dErich" ++ [31] ++ lit "aWulffen" ++ [31] ++ lit "7Tu1" ++ [31] ++ lit "Vwit" ++ [31] ++ lit "Agnd" ++ [31] ++ lit "07591620-4" ++ [31] ++ lit "tKriminalpsychologie und Psychopathologie in Schillers Räubern" ++ [31] ++ lit "4rela" ++ [30])
  ++ (lit "022R " ++ [31] ++ lit "91234088509" ++ [31] ++ lit "7Tp1" ++ [31] ++ lit "Vpiz" ++ [31] ++ lit "Agnd" ++ [31] ++ lit "0133852040" ++ [31] ++ lit "E1962" ++ [31] ++ lit "dTom" ++ [31] ++ lit "aPeuckert" ++ [31] ++ lit "7Tu3" ++ [31] ++ lit "Vwit" ++ [31] ++ lit "Agnd" ++ [31] ++ lit "01234088509" ++ [31] ++ lit "tDie @berühmtesten Dramen der Welt" ++ [31] ++ lit "p2: Schiller ""Die Räuber""" ++ [31] ++ lit "4rela" ++ [31] ++ lit "vBearbeitet als Hörspiel" ++ [30])
  ++ (lit "022R " ++ [31] ++ lit "91234088517" ++ [31] ++ lit "7Tp1" ++ [31] ++ lit "Vpiz" ++ [31] ++ lit "Agnd" ++ [31] ++ lit "0133852040" ++ [31] ++ lit "E1962" ++ [31] ++ lit "dTom" ++ [31] ++ lit "aPeuckert" ++ [31] ++ lit "7Tu3" ++ [31] ++ lit "Vwit" ++ [31] ++ lit "Agnd" ++ [31] ++ lit "01234088517" ++ [31] ++ lit "tDie @berühmtesten Dramen der Welt" ++ [31] ++ lit "p2: Schiller ""Die Räuber""" ++ [31] ++ lit "gHörspielmanuskript" ++ [31] ++ lit "4rela" ++ [31] ++ lit "vBearbeitet als Hörspielmanuskript" ++ [30])
  ++ (lit "028R " ++ [31] ++ lit "9118607626" ++ [31] ++ lit "7Tp1" ++ [31] ++ lit "Vpiz" ++ [31] ++ lit "Agnd" ++ [31] ++ lit "0118607626" ++ [31] ++ lit "E1759" ++ [31] ++ lit "G1805" ++ [31] ++ lit "dFriedrich" ++ [31] ++ lit "aSchiller" ++ [31] ++ lit "4aut1" ++ [30])
  ++ (lit "032W " ++ [31] ++ lit "9040128997" ++ [31] ++ lit "7Tsz" ++ [31] ++ lit "Vsaz" ++ [31] ++ lit "Agnd" ++ [31] ++ lit "04012899-4" ++ [31] ++ lit "aDrama" ++ [30])
  ++ (lit "037G " ++ [31] ++ lit "c832.6" ++ [31] ++ lit "t2013-11-11" ++ [30])
  ++ (lit "041R " ++ [31] ++ lit "9040582744" ++ [31] ++ lit "7Ts1" ++ [31] ++ lit "Vsaz" ++ [31] ++ lit "Agnd" ++ [31] ++ lit "04058274-7" ++ [31] ++ lit "aSturm und Drang" ++ [31] ++ lit "4obal" ++ [30])
  ++ (lit "042A " ++ [31] ++ lit "a12.2p" ++ [30])
  ++ (lit "042B " ++ [31] ++ lit "aXA-DE" ++ [30])
  ++ (lit "042C " ++ [31] ++ lit "ager" ++ [30])
  ++ (lit "047A/03 " ++ [31] ++ lit "eDE-101" ++ [30])
  ++ (lit "047A/03 " ++ [31] ++ lit "rDE-101" ++ [30])
  ++ (lit "047C " ++ [31] ++ lit "Sswd" ++ [31] ++ lit "ipt" ++ [31] ++ lit "aSchiller, Friedrich: Die @Räuber" ++ [31] ++ lit "04099339-5" ++ [30])
  ++ (lit "050C " ++ [31] ++ lit "aWerktitel als Wissensraum" ++ [31] ++ lit "5DE-32" ++ [30])
  ++ (lit "050E " ++ [31] ++ lit "aKindler (3. Aufl.)" ++ [30])
  ++ (lit "050E " ++ [31] ++ lit "aMeid, Volker: Metzler Literatur Chronik, 3., erw. Aufl., 2006" ++ [30])
  ++ (lit "050E " ++ [31] ++ lit "aStein, Peter; Stein, Hartmut: Chronik der deutschen LIteratur, 2008" ++ [30])
  ++ (lit "050E " ++ [31] ++ lit "aDie Leseliste: kommentierte Empfehlungen, 1994" ++ [30])
  ++ (lit "050G " ++ [31] ++ lit "bZeit- und Sachbezug: Prosa-Drama in offener Form. Mit dem Motiv der verfeindeten Brüder wählt Schiller ein bevorzugtes Thema des Sturm und Drang. – Inhalt:  Franz Moor fühlt sich gegenüber seinem älteren Bruder Karl Moor benachteiligt und setzt eine Intrige in Gang, an deren Ende ihr Vater, der Graf Moor, seinen Sohn Karl verstößt. Dieser nimmt das erlittene Unrecht zum Anlass, um als rebelleriender Räuberhauptmann für die Armen und Unterdrückten, für Gerechtigkeit und Freiheit zu kämpfen. Am Ende liefert er sich selbst der Justiz aus. – Überlieferung: Schiller veröffentlichte das Stück anonym und auf eigene Kosten (UT: Ein Schauspiel). 1782 erschien die 2., veränd. Aufl. (UT: Ein Schauspiel von fünf Akten), mit dem zusätzlichen, von Schiller nicht autorisierten Motto ""in Tirannos"". Eine 3., für die Mannheimer Bühne gedachte Aufl. gab Schiller 1782 ebf. selbst heraus (UT: Ein Trauerspiel). Die Uraufführung (stark verändert gegenüber dem Erstdruck) fand am 13.1.1782 im Mannheimer Nationaltheater statt." ++ [30])
  ++ (lit "060R " ++ [31] ++ lit "c1781" ++ [31] ++ lit "4datj" ++ [30])
  ++ [10].

(** /repo/tests/data/DUMP.dat.gz, decompressed, line 4 *)
Definition dump_4 : bytes :=
  (lit "001A " ++ [31] ++ lit "01250:01-07-88" ++ [30])
  ++ (lit "001B " ++ [31] ++ lit "00032:28-09-22" ++ [31] ++ lit "t11:52:14.000" ++ [30])
  ++ (lit "001D " ++ [31] ++ lit "09999:17-01-09" ++ [30])
  ++ (lit "001U " ++ [31] ++ lit "0utf8" ++ [30])
  ++ (lit "001X " ++ [31] ++ lit "00" ++ [30])
  ++ (lit "002@ " ++ [31] ++ lit "0Tu1" ++ [30])
  ++ (lit "003@ " ++ [31] ++ lit "004099337X" ++ [30])
  ++ (lit "003U " ++ [31] ++ lit "ahttp://d-nb.info/gnd/4099337-1" ++ [30])
  ++ (lit "004B " ++ [31] ++ lit "awit" ++ [30])
  ++ (lit "007K " ++ [31] ++ lit "agnd" ++ [31] ++ lit "04099337-1" ++ [30])
  ++ (lit "007N " ++ [31] ++ lit "aswd" ++ [31] ++ lit "04099337-1" ++ [31] ++ lit "vzg" ++ [30])
  ++ (lit "008A " ++ [31] ++ lit "as" ++ [31] ++ lit "af" ++ [30])
  ++ (lit "008B " ++ [31] ++ lit "aw" ++ [31] ++ lit "av" ++ [30])
  ++ (lit "010E " ++ [31] ++ lit "erda" ++ [30])
  ++ (lit "022@ " ++ [31] ++ lit "aKabal und Liebe : Ein bürgerliches Trauerspiel" ++ [31] ++ lit "4tmzu" ++ [31] ++ lit "5DE-32" ++ [30])
  ++ (lit "022@ " ++ [31] ++ lit "aLouise Millerin" ++ [30])
  ++ (lit "022@ " ++ [31] ++ lit "aIntrigue and love" ++ [30])
  ++ (lit "022@ " ++ [31] ++ lit "aLove and intrigue" ++ [30])
  ++ (lit "022@ " ++ [31] ++ lit "aCabal and love" ++ [30])
  ++ (lit "022@ " ++ [31] ++ lit "aCabale et amour" ++ [30])
  ++ (lit "022@ " ++ [31] ++ lit "aIntrigo e amore" ++ [30])
  ++ (lit "022@ " ++ [31] ++ lit "aIntrigue et amour" ++ [30])
  ++ (lit "022@ " ++ [31] ++ lit "aKabaal en liefde" ++ [30])
  ++ (lit "022@ " ++ [31] ++ lit "aKabale og Kærlighed" ++ [30])
  ++ (lit "022@ " ++ [31] ++ lit "aIntryga i miłość" ++ [30])
  ++ (lit "022@ " ++ [31] ++ lit "aIntriga e amor" ++ [30])
  ++ (lit "022@ " ++ [31] ++ lit "aIntriga y amor" ++ [30])
  ++ (lit "022@ " ++ [31] ++ lit "aKärlek och politik" ++ [30])
  ++ (lit "022@ " ++ [31] ++ lit "aÁrmány és szerelem" ++ [30])
  ++ (lit "022@ " ++ [31] ++ lit "aÚklady a láska" ++ [30])
  ++ (lit "022@ " ++ [31] ++ lit "aKovarstvo i ljubov'" ++ [30])
  ++ (lit "022@ " ++ [31] ++ lit "aKovarstvo i ljubov" ++ [30])
  ++ (lit "022@ " ++ [31] ++ lit "aKavaluus ja rakkaus" ++ [30])
  ++ (lit "022@ " ++ [31] ++ lit "aMakr va muqhabbat" ++ [30])
  ++ (lit "022@ " ++ [31] ++ lit "aPidstupnist' i kohannja" ++ [30])
  ++ (lit "022@ " ++ [31] ++ lit "aКоварство и любовь" ++ [30])
  ++ (lit "022@ " ++ [31] ++ lit "aGangyewa sarang" ++ [30])
  ++ (lit "022@ " ++ [31] ++ lit "aYin mou yu ai qing" ++ [30])
  ++ (lit "022@ " ++ [31] ++ lit "aYin mou he ai qing" ++ [30])
  ++ (lit "022@ " ++ [31] ++ lit "aLian'ai yu yinmou" ++ [30])
  ++ (lit "022@ " ++ [31] ++ lit "a^Am-muu-và-ái-tînh" ++ [30])
  ++ (lit "022@ " ++ [31] ++ lit "aKhar sanaa khajr setgel" ++ [30])
  ++ (lit "022@ " ++ [31] ++ lit "aChar sanaa, chajr setgel" ++ [30])
  ++ (lit "022A " ++ [31] ++ lit "aKabale und Liebe" ++ [30])
  ++ (lit "022R " ++ [31] ++ lit "91189948788" ++ [31] ++ lit "7Tp1" ++ [31] ++ lit "Vpiz" ++ [31] ++ lit "Agnd" ++ [31] ++ lit "0118607626" ++ [31] ++ lit "E1759" ++ [31] ++ lit "G1805" ++ [31] ++ lit "dFriedrich" ++ [31] ++ lit "aSchiller" ++ [31] ++ lit "7Tu3" ++ [31] ++ lit "Vwit" ++ [31] ++ lit "Agnd" ++ [31] ++ lit "01189948788" ++ [31] ++ lit "tTrauerspiele" ++ [31] ++ lit "4obpa" ++ [31] ++ lit "vEnthalten in" ++ [30])
  ++ (lit "022R " ++ [31] ++ lit "91215366388" ++ [31] ++ lit "7Tp1" ++ [31] ++ lit "Vpiz" ++ [31] ++ lit "Agnd" ++ [31] ++ lit "0118716778" ++ [31] ++ lit "E1755" ++ [31] ++ lit "G1836" ++ [31] ++ lit "dOtto H." ++ [31] ++ lit "aGemmingen" ++ [31] ++ lit "cvon" ++ [31] ++ lit "7Tu1" ++ [31] ++ lit "Vwit" ++ [31] ++ lit "Agnd" ++ [31] ++ lit "01215366388" ++ [31] ++ lit "tDer @teutsche Hausvater" ++ [31] ++ lit "4vorl" ++ [31] ++ lit "vAngeregt durch" ++ [30])
  ++ (lit "022R " ++ [31] ++ lit "91052275877" ++ [31] ++ lit "7Tu1" ++ [31] ++ lit "Vwit" ++ [31] ++ lit "Agnd" ++ [31] ++ lit "01052275877" ++ [31] ++ lit "tKabale und Liebe" ++ [31] ++ lit "4rela" ++ [31] ++ lit "vBearbeitet als Film" ++ [30])
  ++ (lit "022R " ++ [31] ++ lit "91267972262" ++ [31] ++ lit "7Tu3" ++ [31] ++ lit "Vwit" ++ [31] ++ lit "Agnd" ++ [31] ++ lit "01267972262" ++ [31] ++ lit "tLuise Millerin" ++ [31] ++ lit "gFilm" ++ [31] ++ lit "4rela" ++ [31] ++ lit "vBearbeitet als Film" ++ [30])
  ++ (lit "022R " ++ [31] ++ lit "9126797267X" ++ [31] ++ lit "7Tu3" ++ [31] ++ lit "Vwit" ++ [31] ++ lit "Agnd" ++ [31] ++ lit "0126797267X" ++ [31] ++ lit "tKabale und LIebe" ++ [31] ++ lit "gFilm" ++ [31] ++ lit "f1959" ++ [31] ++ lit "4rela" ++ [31] ++ lit "vBearbeitet als Film" ++ [30])
  ++ (lit "022R " ++ [31] ++ lit "91078023336" ++ [31] ++ lit "7Tp1" ++ [31] ++ lit "Vpiz" ++ [31] ++ lit "Agnd" ++ [31] ++ lit "0118529552" ++ [31] ++ lit "E1918" ++ [31] ++ lit "G1996" ++ [31] ++ lit "dGottfried" ++ [31] ++ lit "aEinem" ++ [31] ++ lit "cvon" ++ [31] ++ lit "7Tu3" ++ [31] ++ lit "Vwim" ++ [31] ++ lit "Agnd" ++ [31] ++ lit "01078023336" ++ [31] ++ lit "tKabale und Liebe" ++ [31] ++ lit "4rela" ++ [31] ++ lit "vBearbeitet als Oper" ++ [30])
  ++ (lit "022R " ++ [31] ++ lit "930016579X" ++ [31] ++ lit "7Tp1" ++ [31] ++ lit "Vpiz" ++ [31] ++ lit "Agnd" ++ [31] ++ lit "0118626523" ++ [31] ++ lit "E1813" ++ [31] ++ lit "G1901" ++ [31] ++ lit "dGiuseppe" ++ [31] ++ lit "aVerdi" ++ [31] ++ lit "7Tu1" ++ [31] ++ lit "Vwim" ++ [31] ++ lit "Agnd" ++ [31] ++ lit "030016579X" ++ [31] ++ lit "tLuisa Miller" ++ [31] ++ lit "4rela" ++ [31] ++ lit "vBearbeitet als Oper" ++ [30])
  ++ (lit "022R " ++ [31] ++ lit "91268011436" ++ [31] ++ lit "7Tp1" ++ [31] ++ lit "Vpiz" ++ [31] ++ lit "Agnd" ++ [31] ++ lit "0115458085" ++ [31] ++ lit "E1801" ++ [31] ++ lit "G1852" ++ [31] ++ lit "dSalvatore" ++ [31] ++ lit "aCammarano" ++ [31] ++ lit "7Tu3" ++ [31] ++ lit "Vwit" ++ [31] ++ lit "Agnd" ++ [31] ++ lit "01268011436" ++ [31] ++ lit "tLuisa Miller" ++ [31] ++ lit "4rela" ++ [31] ++ lit "vBearbeitet als Libretto" ++ [30])
  ++ (lit "022R " ++ [31] ++ lit "91268010316" ++ [31] ++ lit "7Tp3" ++ [31] ++ lit "Vpiz" ++ [31] ++ lit "Agnd" ++ [31] ++ lit "01046965670" ++ [31] ++ lit "E1965" ++ [31] ++ lit "dCristin" ++ [31] ++ lit "aKönig" ++ [31] ++ lit "7Tu3" ++ [31] ++ lit "Vwit" ++ [31] ++ lit "Agnd" ++ [31] ++ lit "01268010316" ++ [31] ++ lit "tLila und Fred" ++ [31] ++ lit "gHörspiel" ++ [31] ++ lit "4rela" ++ [31] ++ lit "vBearbeitet als Hörspiel" ++ [30])
  ++ (lit "022R " ++ [31] ++ lit "91124278060" ++ [31] ++ lit "7Tp3" ++ [31] ++ lit "Vpiz" ++ [31] ++ lit "Agnd" ++ [31] ++ lit "01046965670" ++ [31] ++ lit "E1965" ++ [31] ++ lit "dCristin" ++ [31] ++ lit "aKönig" ++ [31] ++ lit "7Tu3" ++ [31] ++ lit "Vwit" ++ [31] ++ lit "Agnd" ++ [31] ++ lit "01124278060" ++ [31] ++ lit "tLila und Fred" ++ [31] ++ lit "4rela" ++ [31] ++ lit "vBearbeitet als Hörspielmanuskript" ++ [30])
  ++ (lit "028R " ++ [31] ++ lit "9118607626" ++ [31] ++ lit "7Tp1" ++ [31] ++ lit "Vpiz" ++ [31] ++ lit "Agnd" ++ [31] ++ lit "0118607626" ++ [31] ++ lit "E1759" ++ [31] ++ lit "G1805" ++ [31] ++ lit "dFriedrich" ++ [31] ++ lit "aSchiller" ++ [31] ++ lit "4aut1" ++ [30])
  ++ (lit "032W " ++ [31] ++ lit "9040128997" ++ [31] ++ lit "7Tsz" ++ [31] ++ lit "Vsaz" ++ [31] ++ lit "Agnd" ++ [31] ++ lit "04012899-4" ++ [31] ++ lit "aDrama" ++ [30])
  ++ (lit "037G " ++ [31] ++ lit "c832.6" ++ [31] ++ lit "t2012-07-11" ++ [30])
  ++ (lit "041R " ++ [31] ++ lit "9040582744" ++ [31] ++ lit "7Ts1" ++ [31] ++ lit "Vsaz" ++ [31] ++ lit "Agnd" ++ [31] ++ lit "04058274-7" ++ [31] ++ lit "aSturm und Drang" ++ [31] ++ lit "4obal" ++ [30])
  ++ (lit "042A " ++ [31] ++ lit "a12.2p" ++ [30])
  ++ (lit "042B " ++ [31] ++ lit "aXA-DE" ++ [30])
  ++ (lit "042C " ++ [31] ++ lit "ager" ++ [30])
  ++ (lit "047A/03 " ++ [31] ++ lit "eDE-101" ++ [30])
  ++ (lit "047A/03 " ++ [31] ++ lit "rDE-101" ++ [30])
  ++ (lit "047C " ++ [31] ++ lit "Sswd" ++ [31] ++ lit "ipt" ++ [31] ++ lit "aSchiller, Friedrich: Kabale und Liebe" ++ [31] ++ lit "04099337-1" ++ [30])
  ++ (lit "050C " ++ [31] ++ lit "aWerktitel als Wissensraum" ++ [31] ++ lit "5DE-32" ++ [30])
  ++ (lit "050E " ++ [31] ++ lit "aKindler (3. Aufl, online)" ++ [30])
  ++ (lit "050E " ++ [31] ++ lit "aFrenzel Daten" ++ [30])
  ++ (lit "050E " ++ [31] ++ lit "aStein, Peter; Stein, Hartmut: Chronik der deutschen LIteratur, 2008" ++ [30])
  ++ (lit "050E " ++ [31] ++ lit "aMeid, Volker: Metzler Literatur Chronik, 3., erw. Aufl., 2006" ++ [30])
  ++ (lit "050E " ++ [31] ++ lit "aWikisource" ++ [31] ++ lit "bStand: 29.09.2020" ++ [31] ++ lit "uhttps://de.wikisource.org/w/index.php?title=Kabale_und_Liebe&oldid=1946368" ++ [30])
  ++ (lit "050E " ++ [31] ++ lit "aWikipedia" ++ [31] ++ lit "bStand: 29.09.2020" ++ [31] ++ lit "uhttps://de.wikipedia.org/w/index.php?title=Kabale_und_Liebe&oldid=203828698" ++ [30])
  ++ (lit "050G " ++ [31] ++ lit "bZeit- und Sachbezug: Bürgerliches Trauerspiel, das eine scharfe Kritik am Absolutismus und überholten Standesdünkeln mit dem Problem der Unvereinbarkeit unterschiedlicher Liebesaufassungen verbindet" ++ [30])
  ++ (lit "050G " ++ [31] ++ lit "bInhalt: Ferdinand, Major und Sohn des Präsidenten von Walter, eines hochgestellten Adligen ""am Hof eines deutschen Fürsten"", stürzt mit seiner Liebe Luise, die Tochter des Musikus Miller, in einen tödlich endenden Konflikt" ++ [30])
  ++ (lit "050G " ++ [31] ++ lit "bÜberlieferung: Ende 1782 beendete Schiller die Erstfassung des Stücks, das er ""Louise Millerin"" nannte. Nach Umarbeiten erschien die Druckfassung 1784 mit dem Titel ""Kabale und Liebe, ein bürgerliches Trauerspiel in fünf Aufzügen"". Uraufführung am 13.4.1784 in Frankfurt am Main; für die Mannheimer Erstaufführung am 15.4.1784 stellte Schiller eine Bühnenfassung her (""Mannheimer Soufflierbuch""). Das Stück war von Anfang an ein großer Bühnenerfolg und ist es bis heute geblieben." ++ [30])
  ++ (lit "060R " ++ [31] ++ lit "c1784" ++ [31] ++ lit "4datj" ++ [30])
  ++ (lit "060R " ++ [31] ++ lit "a1782" ++ [31] ++ lit "b1783" ++ [31] ++ lit "4dats" ++ [30])
  ++ [10].

(** /repo/tests/data/DUMP.dat.gz, decompressed, line 5 *)
Definition dump_5 : bytes :=
  (lit "001A " ++ [31] ++ lit "01250:01-07-88" ++ [30])
  ++ (lit "001B " ++ [31] ++ lit "01764:06-07-22" ++ [31] ++ lit "t18:43:30.000" ++ [30])
  ++ (lit "001D " ++ [31] ++ lit "09999:17-01-09" ++ [30])
  ++ (lit "001U " ++ [31] ++ lit "0utf8" ++ [30])
  ++ (lit "001X " ++ [31] ++ lit "00" ++ [30])
  ++ (lit "002@ " ++ [31] ++ lit "0Tu1" ++ [30])
  ++ (lit "003@ " ++ [31] ++ lit "0040991970" ++ [30])
  ++ (lit "003U " ++ [31] ++ lit "ahttp://d-nb.info/gnd/4099197-0" ++ [30])
  ++ (lit "004B " ++ [31] ++ lit "awit" ++ [30])
  ++ (lit "007K " ++ [31] ++ lit "agnd" ++ [31] ++ lit "04099197-0" ++ [30])
  ++ (lit "007N " ++ [31] ++ lit "aswd" ++ [31] ++ lit "04099197-0" ++ [31] ++ lit "vzg" ++ [30])
  ++ (lit "008A " ++ [31] ++ lit "as" ++ [31] ++ lit "af" ++ [30])
  ++ (lit "008B " ++ [31] ++ lit "aw" ++ [31] ++ lit "ao" ++ [31] ++ lit "av" ++ [31] ++ lit "am" ++ [30])
  ++ (lit "010E " ++ [31] ++ lit "erda" ++ [30])
  ++ (lit "022@ " ++ [31] ++ lit "aFaust - der Tragödie erster Teil" ++ [30])
  ++ (lit "022@ " ++ [31] ++ lit "aFaust : eine Tragödie" ++ [30])
  ++ (lit "022@ " ++ [31] ++ lit "aFaust" ++ [31] ++ lit "nI" ++ [30])
  ++ (lit "022@ " ++ [31] ++ lit "aP̕austi" ++ [31] ++ lit "n1" ++ [30])
  ++ (lit "022@ " ++ [31] ++ lit "aFaust, Part One" ++ [31] ++ lit "vISO639: eng" ++ [30])
  ++ (lit "022@ " ++ [31] ++ lit "aFaŭsto, parto 1" ++ [31] ++ lit "vISO639: epo" ++ [30])
  ++ (lit "022@ " ++ [31] ++ lit "aFaust : tragedii część pierwsza" ++ [31] ++ lit "vISO639: pol" ++ [30])
  ++ (lit "022@ " ++ [31] ++ lit "aFaust I (vybrané scény)" ++ [30])
  ++ (lit "022A " ++ [31] ++ lit "aFaust" ++ [31] ++ lit "n1" ++ [30])
  ++ (lit "022R " ++ [31] ++ lit "9041281403" ++ [31] ++ lit "7Tpz" ++ [31] ++ lit "Vpiz" ++ [31] ++ lit "Agnd" ++ [31] ++ lit "0118540238" ++ [31] ++ lit "E1749" ++ [31] ++ lit "G1832" ++ [31] ++ lit "dJohann Wolfgang" ++ [31] ++ lit "aGoethe" ++ [31] ++ lit "cvon" ++ [31] ++ lit "7Tu1" ++ [31] ++ lit "Vwit" ++ [31] ++ lit "Agnd" ++ [31] ++ lit "04128140-8" ++ [31] ++ lit "tFaust" ++ [31] ++ lit "4obpa" ++ [31] ++ lit "vEnthalten in" ++ [30])
  ++ (lit "022R " ++ [31] ++ lit "9040991989" ++ [31] ++ lit "7Tpz" ++ [31] ++ lit "Vpiz" ++ [31] ++ lit "Agnd" ++ [31] ++ lit "0118540238" ++ [31] ++ lit "E1749" ++ [31] ++ lit "G1832" ++ [31] ++ lit "dJohann Wolfgang" ++ [31] ++ lit "aGoethe" ++ [31] ++ lit "cvon" ++ [31] ++ lit "7Tu1" ++ [31] ++ lit "Vwit" ++ [31] ++ lit "Agnd" ++ [31] ++ lit "04099198-2" ++ [31] ++ lit "tFaust" ++ [31] ++ lit "n2" ++ [31] ++ lit "4rela" ++ [31] ++ lit "vVervollständigt durch" ++ [30])
  ++ (lit "022R " ++ [31] ++ lit "9041274377" ++ [31] ++ lit "7Tpz" ++ [31] ++ lit "Vpiz" ++ [31] ++ lit "Agnd" ++ [31] ++ lit "0118540238" ++ [31] ++ lit "E1749" ++ [31] ++ lit "G1832" ++ [31] ++ lit "dJohann Wolfgang" ++ [31] ++ lit "aGoethe" ++ [31] ++ lit "cvon" ++ [31] ++ lit "7Tu1" ++ [31] ++ lit "Vwit" ++ [31] ++ lit "Agnd" ++ [31] ++ lit "04127437-4" ++ [31] ++ lit "tUrfaust" ++ [31] ++ lit "4vorg" ++ [31] ++ lit "vVorangegangen ist" ++ [30])
  ++ (lit "022R " ++ [31] ++ lit "9964262134" ++ [31] ++ lit "7Tpz" ++ [31] ++ lit "Vpiz" ++ [31] ++ lit "Agnd" ++ [31] ++ lit "0118540238" ++ [31] ++ lit "E1749" ++ [31] ++ lit "G1832" ++ [31] ++ lit "dJohann Wolfgang" ++ [31] ++ lit "aGoethe" ++ [31] ++ lit "cvon" ++ [31] ++ lit "7Tu1" ++ [31] ++ lit "Vwit" ++ [31] ++ lit "Agnd" ++ [31] ++ lit "04682136-3" ++ [31] ++ lit "tFaust. Ein Fragment" ++ [31] ++ lit "4vorg" ++ [31] ++ lit "vVorangegangen ist" ++ [30])
  ++ (lit "022R " ++ [31] ++ lit "9959726187" ++ [31] ++ lit "7Tpz" ++ [31] ++ lit "Vpiz" ++ [31] ++ lit "Agnd" ++ [31] ++ lit "0118540238" ++ [31] ++ lit "E1749" ++ [31] ++ lit "G1832" ++ [31] ++ lit "dJohann Wolfgang" ++ [31] ++ lit "aGoethe" ++ [31] ++ lit "cvon" ++ [31] ++ lit "7Tu1" ++ [31] ++ lit "Vwit" ++ [31] ++ lit "Agnd" ++ [31] ++ lit "04604231-3" ++ [31] ++ lit "tFaust" ++ [31] ++ lit "n1" ++ [31] ++ lit "pVorspiel auf dem Theater" ++ [31] ++ lit "4rela" ++ [31] ++ lit "vEnthält" ++ [30])
  ++ (lit "022R " ++ [31] ++ lit "91207949760" ++ [31] ++ lit "7Tpz" ++ [31] ++ lit "Vpiz" ++ [31] ++ lit "Agnd" ++ [31] ++ lit "0118540238" ++ [31] ++ lit "E1749" ++ [31] ++ lit "G1832" ++ [31] ++ lit "dJohann Wolfgang" ++ [31] ++ lit "aGoethe" ++ [31] ++ lit "cvon" ++ [31] ++ lit "7Tu3" ++ [31] ++ lit "Vwit" ++ [31] ++ lit "Agnd" ++ [31] ++ lit "01207949760" ++ [31] ++ lit "tFaust" ++ [31] ++ lit "n1" ++ [31] ++ lit "pZueignung" ++ [31] ++ lit "4rela" ++ [31] ++ lit "vEnthält" ++ [30])
  ++ (lit "022R " ++ [31] ++ lit "9959725997" ++ [31] ++ lit "7Tpz" ++ [31] ++ lit "Vpiz" ++ [31] ++ lit "Agnd" ++ [31] ++ lit "0118540238" ++ [31] ++ lit "E1749" ++ [31] ++ lit "G1832" ++ [31] ++ lit "dJohann Wolfgang" ++ [31] ++ lit "aGoethe" ++ [31] ++ lit "cvon" ++ [31] ++ lit "7Tu1" ++ [31] ++ lit "Vwit" ++ [31] ++ lit "Agnd" ++ [31] ++ lit "04604228-3" ++ [31] ++ lit "tFaust" ++ [31] ++ lit "n1I" ++ [31] ++ lit "pProlog im Himmel" ++ [31] ++ lit "4rela" ++ [31] ++ lit "vEnthält" ++ [30])
  ++ (lit "022R " ++ [31] ++ lit "91219938114" ++ [31] ++ lit "7Tpz" ++ [31] ++ lit "Vpiz" ++ [31] ++ lit "Agnd" ++ [31] ++ lit "0118540238" ++ [31] ++ lit "E1749" ++ [31] ++ lit "G1832" ++ [31] ++ lit "dJohann Wolfgang" ++ [31] ++ lit "aGoethe" ++ [31] ++ lit "cvon" ++ [31] ++ lit "7Tu3" ++ [31] ++ lit "Vwit" ++ [31] ++ lit "Agnd" ++ [31] ++ lit "01219938114" ++ [31] ++ lit "tFaust" ++ [31] ++ lit "n1" ++ [31] ++ lit "pVor dem Tor" ++ [31] ++ lit "4rela" ++ [31] ++ lit "vEnthält" ++ [30])
  ++ (lit "022R " ++ [31] ++ lit "9040719235" ++ [31] ++ lit "7Tpz" ++ [31] ++ lit "Vpiz" ++ [31] ++ lit "Agnd" ++ [31] ++ lit "0118540238" ++ [31] ++ lit "E1749" ++ [31] ++ lit "G1832" ++ [31] ++ lit "dJohann Wolfgang" ++ [31] ++ lit "aGoethe" ++ [31] ++ lit "cvon" ++ [31] ++ lit "7Tu1" ++ [31] ++ lit "Vwit" ++ [31] ++ lit "Agnd" ++ [31] ++ lit "04071923-6" ++ [31] ++ lit "tWalpurgisnacht" ++ [31] ++ lit "4rela" ++ [31] ++ lit "vEnthält" ++ [30])
  ++ (lit "022R " ++ [31] ++ lit "91217439048" ++ [31] ++ lit "7Tpz" ++ [31] ++ lit "Vpiz" ++ [31] ++ lit "Agnd" ++ [31] ++ lit "0118540238" ++ [31] ++ lit "E1749" ++ [31] ++ lit "G1832" ++ [31] ++ lit "dJohann Wolfgang" ++ [31] ++ lit "aGoethe" ++ [31] ++ lit "cvon" ++ [31] ++ lit "7Tu1" ++ [31] ++ lit "Vwit" ++ [31] ++ lit "Agnd" ++ [31] ++ lit "01217439048" ++ [31] ++ lit "tGretchen am Spinnrade" ++ [31] ++ lit "4rela" ++ [31] ++ lit "vEnthält" ++ [30])
  ++ (lit "022R " ++ [31] ++ lit "9954066170" ++ [31] ++ lit "7Tpz" ++ [31] ++ lit "Vpiz" ++ [31] ++ lit "Agnd" ++ [31] ++ lit "0118540238" ++ [31] ++ lit "E1749" ++ [31] ++ lit "G1832" ++ [31] ++ lit "dJohann Wolfgang" ++ [31] ++ lit "aGoethe" ++ [31] ++ lit "cvon" ++ [31] ++ lit "7Tu1" ++ [31] ++ lit "Vwit" ++ [31] ++ lit "Agnd" ++ [31] ++ lit "04508326-5" ++ [31] ++ lit "tFaust" ++ [31] ++ lit "n1" ++ [31] ++ lit "pHexen-Einmal-Eins" ++ [31] ++ lit "4rela" ++ [31] ++ lit "vEnthält" ++ [30])
  ++ (lit "022R " ++ [31] ++ lit "9955256321" ++ [31] ++ lit "7Tpz" ++ [31] ++ lit "Vpiz" ++ [31] ++ lit "Agnd" ++ [31] ++ lit "0118540238" ++ [31] ++ lit "E1749" ++ [31] ++ lit "G1832" ++ [31] ++ lit "dJohann Wolfgang" ++ [31] ++ lit "aGoethe" ++ [31] ++ lit "cvon" ++ [31] ++ lit "7Tu1" ++ [31] ++ lit "Vwit" ++ [31] ++ lit "Agnd" ++ [31] ++ lit "04524379-7" ++ [31] ++ lit "tFaust" ++ [31] ++ lit "n1" ++ [31] ++ lit "pAch neige, du Schmerzensreiche" ++ [31] ++ lit "4rela" ++ [31] ++ lit "vEnthält" ++ [30])
  ++ (lit "022R " ++ [31] ++ lit "9041981693" ++ [31] ++ lit "7Tpz" ++ [31] ++ lit "Vpiz" ++ [31] ++ lit "Agnd" ++ [31] ++ lit "0118540238" ++ [31] ++ lit "E1749" ++ [31] ++ lit "G1832" ++ [31] ++ lit "dJohann Wolfgang" ++ [31] ++ lit "aGoethe" ++ [31] ++ lit "cvon" ++ [31] ++ lit "7Tu1" ++ [31] ++ lit "Vwit" ++ [31] ++ lit "Agnd" ++ [31] ++ lit "04198169-8" ++ [31] ++ lit "tFaust" ++ [31] ++ lit "n1" ++ [31] ++ lit "pKerkerlied" ++ [31] ++ lit "4rela" ++ [31] ++ lit "vEnthält" ++ [30])
  ++ (lit "022R " ++ [31] ++ lit "9954066189" ++ [31] ++ lit "7Tpz" ++ [31] ++ lit "Vpiz" ++ [31] ++ lit "Agnd" ++ [31] ++ lit "0118540238" ++ [31] ++ lit "E1749" ++ [31] ++ lit "G1832" ++ [31] ++ lit "dJohann Wolfgang" ++ [31] ++ lit "aGoethe" ++ [31] ++ lit "cvon" ++ [31] ++ lit "7Tu1" ++ [31] ++ lit "Vwit" ++ [31] ++ lit "Agnd" ++ [31] ++ lit "04508327-7" ++ [31] ++ lit "tFaust" ++ [31] ++ lit "n1" ++ [31] ++ lit "pHexenküche" ++ [31] ++ lit "4rela" ++ [31] ++ lit "vEnthält" ++ [30])
  ++ (lit "022R " ++ [31] ++ lit "91219938165" ++ [31] ++ lit "7Tpz" ++ [31] ++ lit "Vpiz" ++ [31] ++ lit "Agnd" ++ [31] ++ lit "0118540238" ++ [31] ++ lit "E1749" ++ [31] ++ lit "G1832" ++ [31] ++ lit "dJohann Wolfgang" ++ [31] ++ lit "aGoethe" ++ [31] ++ lit "cvon" ++ [31] ++ lit "7Tu1" ++ [31] ++ lit "Vwit" ++ [31] ++ lit "Agnd" ++ [31] ++ lit "01219938165" ++ [31] ++ lit "tOsterspaziergang" ++ [31] ++ lit "4rela" ++ [31] ++ lit "vEnthält" ++ [30])
  ++ (lit "022R " ++ [31] ++ lit "9121762743X" ++ [31] ++ lit "7Tp1" ++ [31] ++ lit "Vpiz" ++ [31] ++ lit "Agnd" ++ [31] ++ lit "0119021056" ++ [31] ++ lit "E1836" ++ [31] ++ lit "G1902" ++ [31] ++ lit "dJames" ++ [31] ++ lit "aTissot" ++ [31] ++ lit "7Tu3" ++ [31] ++ lit "Vwit" ++ [31] ++ lit "Agnd" ++ [31] ++ lit "0121762743X" ++ [31] ++ lit "tRencontre de Faust et de Marguerite" ++ [31] ++ lit "4rela" ++ [31] ++ lit "vIllustration" ++ [30])
  ++ (lit "022R " ++ [31] ++ lit "91217675434" ++ [31] ++ lit "7Tp1" ++ [31] ++ lit "Vpiz" ++ [31] ++ lit "Agnd" ++ [31] ++ lit "0118992767" ++ [31] ++ lit "E1786" ++ [31] ++ lit "G1831" ++ [31] ++ lit "dFranz" ++ [31] ++ lit "aRiepenhausen" ++ [31] ++ lit "7Tu3" ++ [31] ++ lit "Vwit" ++ [31] ++ lit "Agnd" ++ [31] ++ lit "01217675434" ++ [31] ++ lit "tGretchen findet den Schmuck" ++ [31] ++ lit "4rela" ++ [31] ++ lit "vIllustration" ++ [30])
  ++ (lit "022R " ++ [31] ++ lit "91217679227" ++ [31] ++ lit "7Tp1" ++ [31] ++ lit "Vpiz" ++ [31] ++ lit "Agnd" ++ [31] ++ lit "0132290545" ++ [31] ++ lit "E1843" ++ [31] ++ lit "G1905" ++ [31] ++ lit "dPedro Américo de Figueiredo" ++ [31] ++ lit "aMelo" ++ [31] ++ lit "ce" ++ [31] ++ lit "7Tu3" ++ [31] ++ lit "Vwit" ++ [31] ++ lit "Agnd" ++ [31] ++ lit "01217679227" ++ [31] ++ lit "tFausto e Margarida" ++ [31] ++ lit "4rela" ++ [31] ++ lit "vIllustration" ++ [30])
  ++ (lit "022R " ++ [31] ++ lit "91217740031" ++ [31] ++ lit "7Tp1" ++ [31] ++ lit "Vpiz" ++ [31] ++ lit "Agnd" ++ [31] ++ lit "0118548689" ++ [31] ++ lit "E1925" ++ [31] ++ lit "G2011" ++ [31] ++ lit "dBernhard" ++ [31] ++ lit "aHeisig" ++ [31] ++ lit "7Tu3" ++ [31] ++ lit "Vwit" ++ [31] ++ lit "Agnd" ++ [31] ++ lit "01217740031" ++ [31] ++ lit "tIllustrationen zu Goethes Faust I" ++ [31] ++ lit "4rela" ++ [31] ++ lit "vIllustration" ++ [30])
  ++ (lit "022R " ++ [31] ++ lit "91217817832" ++ [31] ++ lit "7Tp1" ++ [31] ++ lit "Vpiz" ++ [31] ++ lit "Agnd" ++ [31] ++ lit "0118609823" ++ [31] ++ lit "E1788" ++ [31] ++ lit "G1853" ++ [31] ++ lit "dLudwig" ++ [31] ++ lit "aSchnorr von Carolsfeld" ++ [31] ++ lit "7Tu3" ++ [31] ++ lit "Vwit" ++ [31] ++ lit "Agnd" ++ [31] ++ lit "01217817832" ++ [31] ++ lit "tFaust und Mephisto in der Studierstube" ++ [31] ++ lit "4rela" ++ [31] ++ lit "vIllustration" ++ [30])
  ++ (lit "022R " ++ [31] ++ lit "91217820094" ++ [31] ++ lit "7Tp1" ++ [31] ++ lit "Vpiz" ++ [31] ++ lit "Agnd" ++ [31] ++ lit "0118715380" ++ [31] ++ lit "E1780" ++ [31] ++ lit "G1856" ++ [31] ++ lit "dJohann Peter" ++ [31] ++ lit "aKrafft" ++ [31] ++ lit "7Tu3" ++ [31] ++ lit "Vwit" ++ [31] ++ lit "Agnd" ++ [31] ++ lit "01217820094" ++ [31] ++ lit "tFaust am Ostermorgen" ++ [31] ++ lit "4rela" ++ [31] ++ lit "vIllustration" ++ [30])
  ++ (lit "022R " ++ [31] ++ lit "9117100737X" ++ [31] ++ lit "7Tp1" ++ [31] ++ lit "Vpiz" ++ [31] ++ lit "Agnd" ++ [31] ++ lit "0118560751" ++ [31] ++ lit "E1805" ++ [31] ++ lit "G1874" ++ [31] ++ lit "dWilhelm" ++ [31] ++ lit "aKaulbach" ++ [31] ++ lit "cvon" ++ [31] ++ lit "7Tu3" ++ [31] ++ lit "Vwit" ++ [31] ++ lit "Agnd" ++ [31] ++ lit "0117100737X" ++ [31] ++ lit "tGretchen zur Kirche gehend" ++ [31] ++ lit "4rela" ++ [31] ++ lit "vIllustration" ++ [30])
  ++ (lit "022R " ++ [31] ++ lit "91171007213" ++ [31] ++ lit "7Tp1" ++ [31] ++ lit "Vpiz" ++ [31] ++ lit "Agnd" ++ [31] ++ lit "0118560751" ++ [31] ++ lit "E1805" ++ [31] ++ lit "G1874" ++ [31] ++ lit "dWilhelm" ++ [31] ++ lit "aKaulbach" ++ [31] ++ lit "cvon" ++ [31] ++ lit "7Tu1" ++ [31] ++ lit "Vwit" ++ [31] ++ lit "Agnd" ++ [31] ++ lit "01171007213" ++ [31] ++ lit "tGretchen vor der Mater dolorosa" ++ [31] ++ lit "4rela" ++ [31] ++ lit "vIllustration" ++ [30])
  ++ (lit "022R " ++ [31] ++ lit "91217822437" ++ [31] ++ lit "7Tp1" ++ [31] ++ lit "Vpiz" ++ [31] ++ lit "Agnd" ++ [31] ++ lit "0120772922" ++ [31] ++ lit "E1873" ++ [31] ++ lit "G1929" ++ [31] ++ lit "dMathieu" ++ [31] ++ lit "aMolitor" ++ [31] ++ lit "7Tu3" ++ [31] ++ lit "Vwit" ++ [31] ++ lit "Agnd" ++ [31] ++ lit "01217822437" ++ [31] ++ lit "tFaust und Mephisto" ++ [31] ++ lit "4rela" ++ [31] ++ lit "vAnregung für" ++ [30])
  ++ (lit "022R " ++ [31] ++ lit "91079184228" ++ [31] ++ lit "7Tp1" ++ [31] ++ lit "Vpip" ++ [31] ++ lit "Agnd" ++ [31] ++ lit "0128409142" ++ [31] ++ lit "E1976" ++ [31] ++ lit "PFlix" ++ [31] ++ lit "7Tu3" ++ [31] ++ lit "Vwit" ++ [31] ++ lit "Agnd" ++ [31] ++ lit "01079184228" ++ [31] ++ lit "tFaust" ++ [31] ++ lit "4rela" ++ [31] ++ lit "vBearbeitet als Graphic Novel" ++ [30])
  ++ (lit "022R " ++ [31] ++ lit "91244830623" ++ [31] ++ lit "7Tu1" ++ [31] ++ lit "Vwit" ++ [31] ++ lit "Agnd" ++ [31] ++ lit "01244830623" ++ [31] ++ lit "tGoethes Faust" ++ [31] ++ lit "4rela" ++ [31] ++ lit "vBearbeitet als Film" ++ [30])
  ++ (lit "022R " ++ [31] ++ lit "9994482078" ++ [31] ++ lit "7Tu1" ++ [31] ++ lit "Vwit" ++ [31] ++ lit "Agnd" ++ [31] ++ lit "07659934-6" ++ [31] ++ lit "tFaust - Vom Himmel durch die Welt zur Hölle" ++ [31] ++ lit "4rela" ++ [31] ++ lit "vBearbeitet als Film" ++ [30])
  ++ (lit "022R " ++ [31] ++ lit "9042182999" ++ [31] ++ lit "7Tu1" ++ [31] ++ lit "Vwit" ++ [31] ++ lit "Agnd" ++ [31] ++ lit "04218299-2" ++ [31] ++ lit "tFaust" ++ [31] ++ lit "gFilm" ++ [31] ++ lit "f1960" ++ [31] ++ lit "4rela" ++ [31] ++ lit "vBearbeitet als Film" ++ [30])
  ++ (lit "022R " ++ [31] ++ lit "9042178509" ++ [31] ++ lit "7Tu1" ++ [31] ++ lit "Vwit" ++ [31] ++ lit "Agnd" ++ [31] ++ lit "04217850-2" ++ [31] ++ lit "tFaust" ++ [31] ++ lit "gFilm" ++ [31] ++ lit "f1926" ++ [31] ++ lit "4rela" ++ [31] ++ lit "vBearbeitet als Film" ++ [30])
  ++ (lit "022R " ++ [31] ++ lit "91248852532" ++ [31] ++ lit "7Tu3" ++ [31] ++ lit "Vwit" ++ [31] ++ lit "Agnd" ++ [31] ++ lit "01248852532" ++ [31] ++ lit "tFaust - der Tragödie erster Teil" ++ [31] ++ lit "gFilm" ++ [31] ++ lit "4rela" ++ [31] ++ lit "vBearbeitet als Film" ++ [30])
  ++ (lit "028R " ++ [31] ++ lit "9118540238" ++ [31] ++ lit "7Tpz" ++ [31] ++ lit "Vpiz" ++ [31] ++ lit "Agnd" ++ [31] ++ lit "0118540238" ++ [31] ++ lit "E1749" ++ [31] ++ lit "G1832" ++ [31] ++ lit "dJohann Wolfgang" ++ [31] ++ lit "aGoethe" ++ [31] ++ lit "cvon" ++ [31] ++ lit "4aut1" ++ [30])
  ++ (lit "032W " ++ [31] ++ lit "9040128997" ++ [31] ++ lit "7Tsz" ++ [31] ++ lit "Vsaz" ++ [31] ++ lit "Agnd" ++ [31] ++ lit "04012899-4" ++ [31] ++ lit "aDrama" ++ [30])
  ++ (lit "037G " ++ [31] ++ lit "c832.6" ++ [31] ++ lit "t2012-08-13" ++ [30])
  ++ (lit "042A " ++ [31] ++ lit "a12.2p" ++ [30])
  ++ (lit "042B " ++ [31] ++ lit "aXA-DE" ++ [30])
  ++ (lit "042C " ++ [31] ++ lit "ager" ++ [30])
  ++ (lit "047A/03 " ++ [31] ++ lit "eDE-101" ++ [30])
  ++ (lit "047A/03 " ++ [31] ++ lit "rDE-101" ++ [30])
  ++ (lit "047C " ++ [31] ++ lit "Sswd" ++ [31] ++ lit "ipt" ++ [31] ++ lit "aGoethe, Johann Wolfgang {von: Faust I" ++ [31] ++ lit "04099197-0" ++ [30])
  ++ (lit "050C " ++ [31] ++ lit "aWerktitel als Wissensraum" ++ [31] ++ lit "5DE-32" ++ [30])
  ++ (lit "050C " ++ [31] ++ lit "aBeispiel in RSWK 3. Aufl." ++ [30])
  ++ (lit "050C " ++ [31] ++ lit "aFaust I und II gelten als 2 Teile eines Gesamtwerkes Faust, daher die Zählung beim bevorzugten Titel" ++ [30])
  ++ (lit "050E " ++ [31] ++ lit "aKindler neu" ++ [30])
  ++ (lit "050E " ++ [31] ++ lit "aDeutsches Textarchiv" ++ [31] ++ lit "bStand: 05.07.2017" ++ [31] ++ lit "uhttp://www.deutschestextarchiv.de/goethe_faust01_1808" ++ [30])
  ++ (lit "050E " ++ [31] ++ lit "aGoethe, Johann Wolfgang: Poetische Werke (Berliner Ausgabe), Bd. 8, Berlin 1965, S. 145-300 und S. 739ff" ++ [30])
  ++ (lit "050G " ++ [31] ++ lit "bEpoche: Klassik" ++ [30])
  ++ (lit "050G " ++ [31] ++ lit "bZeit- und Sachbezug: erster Teil des Goetheschen Faust-Dramas, entstanden aus den Vorläuferwerken ""Urfaust"" und ""Faust. Ein Fragment""." ++ [30])
  ++ (lit "050G " ++ [31] ++ lit "bInhalt: Vorangestellt sind 3 Präludien: ""Zueignung"", ""Vorspiel auf dem Theater"" und ""Prolog im Himmel"". Handelt vom Streben Fausts nach Erkenntnis und Genuß, darüber einen Pakt mit dem Teufel eingeht und schließlich seine große Liebe Gretchen verliert." ++ [30])
  ++ (lit "050G " ++ [31] ++ lit "bÜberlieferung: Erstdruck Tübingen, Cotta 1808; die UA erfolgte 1829. Vielfach für die Bühne bearbeitet; besonders ikonisch die Inszenierungen mit Gustaf Gründgens als Mephisto." ++ [30])
  ++ (lit "060R " ++ [31] ++ lit "c1808" ++ [31] ++ lit "4datj" ++ [30])
  ++ [10].

(** /repo/tests/data/DUMP.dat.gz, decompressed, line 6 *)
Definition dump_6 : bytes :=
  (lit "001A " ++ [31] ++ lit "01250:01-07-88" ++ [30])
  ++ (lit "001B " ++ [31] ++ lit "01764:21-09-22" ++ [31] ++ lit "t11:51:20.000" ++ [30])
  ++ (lit "001D " ++ [31] ++ lit "09999:17-01-09" ++ [30])
  ++ (lit "001U " ++ [31] ++ lit "0utf8" ++ [30])
  ++ (lit "001X " ++ [31] ++ lit "00" ++ [30])
  ++ (lit "002@ " ++ [31] ++ lit "0Tu1" ++ [30])
  ++ (lit "003@ " ++ [31] ++ lit "0040991989" ++ [30])
  ++ (lit "003U " ++ [31] ++ lit "ahttp://d-nb.info/gnd/4099198-2" ++ [31] ++ lit "zhttp://d-nb.info/gnd/1214756980" ++ [30])
  ++ (lit "004B " ++ [31] ++ lit "awit" ++ [30])
  ++ (lit "007K " ++ [31] ++ lit "agnd" ++ [31] ++ lit "04099198-2" ++ [30])
  ++ (lit "007N " ++ [31] ++ lit "agnd" ++ [31] ++ lit "01214756980" ++ [30])
  ++ (lit "007N " ++ [31] ++ lit "aswd" ++ [31] ++ lit "04099198-2" ++ [31] ++ lit "vzg" ++ [30])
  ++ (lit "008A " ++ [31] ++ lit "as" ++ [31] ++ lit "af" ++ [30])
  ++ (lit "008B " ++ [31] ++ lit "aw" ++ [31] ++ lit "ao" ++ [31] ++ lit "av" ++ [30])
  ++ (lit "010E " ++ [31] ++ lit "erda" ++ [30])
  ++ (lit "022@ " ++ [31] ++ lit "aFaust II" ++ [31] ++ lit "5DE-32" ++ [31] ++ lit "vISO639: ger" ++ [30])
  ++ (lit "022@ " ++ [31] ++ lit "aFaust. 2. Teil" ++ [31] ++ lit "5DE-32" ++ [31] ++ lit "vISO639: ger" ++ [30])
  ++ (lit "022@ " ++ [31] ++ lit "aFaust. Zweiter Teil" ++ [31] ++ lit "5DE-32" ++ [31] ++ lit "vISO639: ger" ++ [30])
  ++ (lit "022@ " ++ [31] ++ lit "aFaust : Teil II" ++ [31] ++ lit "5DE-32" ++ [31] ++ lit "vISO639: ger" ++ [30])
  ++ (lit "022@ " ++ [31] ++ lit "aFaust : der Tragödie zweiter Teil" ++ [31] ++ lit "5DE-32" ++ [31] ++ lit "vISO639: ger" ++ [30])
  ++ (lit "022@ " ++ [31] ++ lit "aP̕austi" ++ [31] ++ lit "n2" ++ [30])
  ++ (lit "022@ " ++ [31] ++ lit "aFaust : The Second Part of the Tragedy" ++ [31] ++ lit "vISO639: eng" ++ [30])
  ++ (lit "022@ " ++ [31] ++ lit "aLe @second Faust" ++ [31] ++ lit "vISO639: fre" ++ [30])
  ++ (lit "022@ " ++ [31] ++ lit "aIl @secondo Faust" ++ [31] ++ lit "vISO639: ita" ++ [30])
  ++ (lit "022@ " ++ [31] ++ lit "aFaust : Druhý díl tragédie" ++ [31] ++ lit "vISO639: cze" ++ [30])
  ++ (lit "022@ " ++ [31] ++ lit "aFaust : tragedii część pierwsza i druga" ++ [31] ++ lit "vISO639: pol" ++ [30])
  ++ (lit "022@ " ++ [31] ++ lit "aFaust : partea întîi si partea a doua a tragediei" ++ [31] ++ lit "vISO639: rum" ++ [30])
  ++ (lit "022@ " ++ [31] ++ lit "aFaust drugi deo" ++ [31] ++ lit "vISO639: hrv" ++ [30])
  ++ (lit "022@ " ++ [31] ++ lit "aFaust : tragedianın ikinci bölümü" ++ [31] ++ lit "vISO639: tur" ++ [30])
  ++ (lit "022@ " ++ [31] ++ lit "aPhaust : meros 2" ++ [31] ++ lit "vISO639: gre" ++ [30])
  ++ (lit "022A " ++ [31] ++ lit "aFaust" ++ [31] ++ lit "n2" ++ [30])
  ++ (lit "022R " ++ [31] ++ lit "9041281403" ++ [31] ++ lit "7Tpz" ++ [31] ++ lit "Vpiz" ++ [31] ++ lit "Agnd" ++ [31] ++ lit "0118540238" ++ [31] ++ lit "E1749" ++ [31] ++ lit "G1832" ++ [31] ++ lit "dJohann Wolfgang" ++ [31] ++ lit "aGoethe" ++ [31] ++ lit "cvon" ++ [31] ++ lit "7Tu1" ++ [31] ++ lit "Vwit" ++ [31] ++ lit "Agnd" ++ [31] ++ lit "04128140-8" ++ [31] ++ lit "tFaust" ++ [31] ++ lit "4obpa" ++ [31] ++ lit "vEnthalten in" ++ [30])
  ++ (lit "022R " ++ [31] ++ lit "9040991970" ++ [31] ++ lit "7Tpz" ++ [31] ++ lit "Vpiz" ++ [31] ++ lit "Agnd" ++ [31] ++ lit "0118540238" ++ [31] ++ lit "E1749" ++ [31] ++ lit "G1832" ++ [31] ++ lit "dJohann Wolfgang" ++ [31] ++ lit "aGoethe" ++ [31] ++ lit "cvon" ++ [31] ++ lit "7Tu1" ++ [31] ++ lit "Vwit" ++ [31] ++ lit "Agnd" ++ [31] ++ lit "04099197-0" ++ [31] ++ lit "tFaust" ++ [31] ++ lit "n1" ++ [31] ++ lit "4rela" ++ [31] ++ lit "vVervollständigt durch" ++ [30])
  ++ (lit "022R " ++ [31] ++ lit "9121553972X" ++ [31] ++ lit "7Tpz" ++ [31] ++ lit "Vpiz" ++ [31] ++ lit "Agnd" ++ [31] ++ lit "0118540238" ++ [31] ++ lit "E1749" ++ [31] ++ lit "G1832" ++ [31] ++ lit "dJohann Wolfgang" ++ [31] ++ lit "aGoethe" ++ [31] ++ lit "cvon" ++ [31] ++ lit "7Tu1" ++ [31] ++ lit "Vwit" ++ [31] ++ lit "Agnd" ++ [31] ++ lit "0121553972X" ++ [31] ++ lit "tFaust" ++ [31] ++ lit "n2., 1" ++ [31] ++ lit "4rela" ++ [31] ++ lit "vEnthält" ++ [30])
  ++ (lit "022R " ++ [31] ++ lit "9956264700" ++ [31] ++ lit "7Tpz" ++ [31] ++ lit "Vpiz" ++ [31] ++ lit "Agnd" ++ [31] ++ lit "0118540238" ++ [31] ++ lit "E1749" ++ [31] ++ lit "G1832" ++ [31] ++ lit "dJohann Wolfgang" ++ [31] ++ lit "aGoethe" ++ [31] ++ lit "cvon" ++ [31] ++ lit "7Tu1" ++ [31] ++ lit "Vwit" ++ [31] ++ lit "Agnd" ++ [31] ++ lit "04540579-7" ++ [31] ++ lit "tKlassische Walpurgisnacht" ++ [31] ++ lit "4rela" ++ [31] ++ lit "vEnthält" ++ [30])
  ++ (lit "022R " ++ [31] ++ lit "9041998316" ++ [31] ++ lit "7Tpz" ++ [31] ++ lit "Vpiz" ++ [31] ++ lit "Agnd" ++ [31] ++ lit "0118540238" ++ [31] ++ lit "E1749" ++ [31] ++ lit "G1832" ++ [31] ++ lit "dJohann Wolfgang" ++ [31] ++ lit "aGoethe" ++ [31] ++ lit "cvon" ++ [31] ++ lit "7Tu1" ++ [31] ++ lit "Vwit" ++ [31] ++ lit "Agnd" ++ [31] ++ lit "04199831-5" ++ [31] ++ lit "tFaust" ++ [31] ++ lit "n2., 1-2" ++ [31] ++ lit "4rela" ++ [31] ++ lit "vEnthält" ++ [30])
  ++ (lit "022R " ++ [31] ++ lit "9954174143" ++ [31] ++ lit "7Tpz" ++ [31] ++ lit "Vpiz" ++ [31] ++ lit "Agnd" ++ [31] ++ lit "0118540238" ++ [31] ++ lit "E1749" ++ [31] ++ lit "G1832" ++ [31] ++ lit "dJohann Wolfgang" ++ [31] ++ lit "aGoethe" ++ [31] ++ lit "cvon" ++ [31] ++ lit "7Tu1" ++ [31] ++ lit "Vwit" ++ [31] ++ lit "Agnd" ++ [31] ++ lit "04509569-3" ++ [31] ++ lit "tFaust" ++ [31] ++ lit "n2., 3" ++ [31] ++ lit "4rela" ++ [31] ++ lit "vEnthält" ++ [30])
  ++ (lit "022R " ++ [31] ++ lit "9041998308" ++ [31] ++ lit "7Tpz" ++ [31] ++ lit "Vpiz" ++ [31] ++ lit "Agnd" ++ [31] ++ lit "0118540238" ++ [31] ++ lit "E1749" ++ [31] ++ lit "G1832" ++ [31] ++ lit "dJohann Wolfgang" ++ [31] ++ lit "aGoethe" ++ [31] ++ lit "cvon" ++ [31] ++ lit "7Tu1" ++ [31] ++ lit "Vwit" ++ [31] ++ lit "Agnd" ++ [31] ++ lit "04199830-3" ++ [31] ++ lit "tFaust" ++ [31] ++ lit "n2., 4" ++ [31] ++ lit "4rela" ++ [31] ++ lit "vEnthält" ++ [30])
  ++ (lit "022R " ++ [31] ++ lit "9041355296" ++ [31] ++ lit "7Tpz" ++ [31] ++ lit "Vpiz" ++ [31] ++ lit "Agnd" ++ [31] ++ lit "0118540238" ++ [31] ++ lit "E1749" ++ [31] ++ lit "G1832" ++ [31] ++ lit "dJohann Wolfgang" ++ [31] ++ lit "aGoethe" ++ [31] ++ lit "cvon" ++ [31] ++ lit "7Tu1" ++ [31] ++ lit "Vwit" ++ [31] ++ lit "Agnd" ++ [31] ++ lit "04135529-5" ++ [31] ++ lit "tFaust" ++ [31] ++ lit "n2., 5" ++ [31] ++ lit "4rela" ++ [31] ++ lit "vEnthält" ++ [30])
  ++ (lit "022R " ++ [31] ++ lit "9940176696" ++ [31] ++ lit "7Tpz" ++ [31] ++ lit "Vpiz" ++ [31] ++ lit "Agnd" ++ [31] ++ lit "0118540238" ++ [31] ++ lit "E1749" ++ [31] ++ lit "G1832" ++ [31] ++ lit "dJohann Wolfgang" ++ [31] ++ lit "aGoethe" ++ [31] ++ lit "cvon" ++ [31] ++ lit "7Tu1" ++ [31] ++ lit "Vwit" ++ [31] ++ lit "Agnd" ++ [31] ++ lit "04330279-8" ++ [31] ++ lit "tFaust" ++ [31] ++ lit "n2" ++ [31] ++ lit "pBergschluchten" ++ [31] ++ lit "4rela" ++ [31] ++ lit "vEnthält" ++ [30])
  ++ (lit "022R " ++ [31] ++ lit "91217628304" ++ [31] ++ lit "7Tpz" ++ [31] ++ lit "Vpiz" ++ [31] ++ lit "Agnd" ++ [31] ++ lit "0118540238" ++ [31] ++ lit "E1749" ++ [31] ++ lit "G1832" ++ [31] ++ lit "dJohann Wolfgang" ++ [31] ++ lit "aGoethe" ++ [31] ++ lit "cvon" ++ [31] ++ lit "7Tu1" ++ [31] ++ lit "Vwit" ++ [31] ++ lit "Agnd" ++ [31] ++ lit "01217628304" ++ [31] ++ lit "tZum Sehen geboren" ++ [31] ++ lit "4rela" ++ [31] ++ lit "vEnthält" ++ [30])
  ++ (lit "022R " ++ [31] ++ lit "91248949218" ++ [31] ++ lit "7Tp3" ++ [31] ++ lit "Vpiz" ++ [31] ++ lit "Agnd" ++ [31] ++ lit "01043580441" ++ [31] ++ lit "E1854" ++ [31] ++ lit "G1923" ++ [31] ++ lit "dEugène" ++ [31] ++ lit "aAdenis" ++ [31] ++ lit "7Tu3" ++ [31] ++ lit "Vwit" ++ [31] ++ lit "Agnd" ++ [31] ++ lit "01248949218" ++ [31] ++ lit "tFaust et Hélène" ++ [31] ++ lit "4rela" ++ [31] ++ lit "vAnregung für" ++ [30])
  ++ (lit "022R " ++ [31] ++ lit "91216848203" ++ [31] ++ lit "7Tp1" ++ [31] ++ lit "Vpiz" ++ [31] ++ lit "Agnd" ++ [31] ++ lit "0118508210" ++ [31] ++ lit "E1884" ++ [31] ++ lit "G1950" ++ [31] ++ lit "dMax" ++ [31] ++ lit "aBeckmann" ++ [31] ++ lit "7Tu3" ++ [31] ++ lit "Vwit" ++ [31] ++ lit "Agnd" ++ [31] ++ lit "01216848203" ++ [31] ++ lit "t143 Federzeichnungen zu Goethes Faust II" ++ [31] ++ lit "4rela" ++ [31] ++ lit "vIllustrationen" ++ [30])
  ++ (lit "022R " ++ [31] ++ lit "91248948580" ++ [31] ++ lit "7Tp1" ++ [31] ++ lit "Vpiz" ++ [31] ++ lit "Agnd" ++ [31] ++ lit "0118524917" ++ [31] ++ lit "E1894" ++ [31] ++ lit "G1979" ++ [31] ++ lit "dPaul" ++ [31] ++ lit "aDessau" ++ [31] ++ lit "7Tu3" ++ [31] ++ lit "Vwim" ++ [31] ++ lit "Agnd" ++ [31] ++ lit "01248948580" ++ [31] ++ lit "tFaust II" ++ [31] ++ lit "4rela" ++ [31] ++ lit "vBühnenmusik" ++ [30])
  ++ (lit "022R " ++ [31] ++ lit "91248948726" ++ [31] ++ lit "7Tp1" ++ [31] ++ lit "Vpiz" ++ [31] ++ lit "Agnd" ++ [31] ++ lit "012462376X" ++ [31] ++ lit "E1923" ++ [31] ++ lit "G2001" ++ [31] ++ lit "dWerner" ++ [31] ++ lit "aHaentjes" ++ [31] ++ lit "7Tu3" ++ [31] ++ lit "Vwim" ++ [31] ++ lit "Agnd" ++ [31] ++ lit "01248948726" ++ [31] ++ lit "tFaust II" ++ [31] ++ lit "4rela" ++ [31] ++ lit "vBühnenmusik" ++ [30])
  ++ (lit "022R " ++ [31] ++ lit "91250292204" ++ [31] ++ lit "7Tp1" ++ [31] ++ lit "Vpiz" ++ [31] ++ lit "Agnd" ++ [31] ++ lit "0121302490" ++ [31] ++ lit "E1815" ++ [31] ++ lit "G1873" ++ [31] ++ lit "dHenry Hugo" ++ [31] ++ lit "aPierson" ++ [31] ++ lit "7Tu3" ++ [31] ++ lit "Vwim" ++ [31] ++ lit "Agnd" ++ [31] ++ lit "01250292204" ++ [31] ++ lit "tMusik zu Goethe’s Faust, zweiter Theil" ++ [31] ++ lit "4rela" ++ [31] ++ lit "vBühnenmusik" ++ [30])
  ++ (lit "022R " ++ [31] ++ lit "91248949501" ++ [31] ++ lit "7Tp1" ++ [31] ++ lit "Vpiz" ++ [31] ++ lit "Agnd" ++ [31] ++ lit "0117484458" ++ [31] ++ lit "E1906" ++ [31] ++ lit "G1990" ++ [31] ++ lit "dMarc André" ++ [31] ++ lit "aSouchay" ++ [31] ++ lit "7Tu3" ++ [31] ++ lit "Vwim" ++ [31] ++ lit "Agnd" ++ [31] ++ lit "01248949501" ++ [31] ++ lit "tFaust und Helena" ++ [31] ++ lit "4rela" ++ [31] ++ lit "vBearbeitet als Oper" ++ [30])
  ++ (lit "028R " ++ [31] ++ lit "9118540238" ++ [31] ++ lit "7Tpz" ++ [31] ++ lit "Vpiz" ++ [31] ++ lit "Agnd" ++ [31] ++ lit "0118540238" ++ [31] ++ lit "E1749" ++ [31] ++ lit "G1832" ++ [31] ++ lit "dJohann Wolfgang" ++ [31] ++ lit "aGoethe" ++ [31] ++ lit "cvon" ++ [31] ++ lit "4aut1" ++ [30])
  ++ (lit "032W " ++ [31] ++ lit "9040128997" ++ [31] ++ lit "7Tsz" ++ [31] ++ lit "Vsaz" ++ [31] ++ lit "Agnd" ++ [31] ++ lit "04012899-4" ++ [31] ++ lit "aDrama" ++ [30])
  ++ (lit "037G " ++ [31] ++ lit "c832.6" ++ [31] ++ lit "t2012-08-13" ++ [30])
  ++ (lit "041R " ++ [31] ++ lit "9040309606" ++ [31] ++ lit "7Ts1" ++ [31] ++ lit "Vsaz" ++ [31] ++ lit "Agnd" ++ [31] ++ lit "04030960-5" ++ [31] ++ lit "aKlassik" ++ [31] ++ lit "4obal" ++ [30])
  ++ (lit "042A " ++ [31] ++ lit "a12.2p" ++ [30])
  ++ (lit "042B " ++ [31] ++ lit "aXA-DE" ++ [30])
  ++ (lit "042C " ++ [31] ++ lit "ager" ++ [30])
  ++ (lit "047A/03 " ++ [31] ++ lit "eDE-101" ++ [30])
  ++ (lit "047A/03 " ++ [31] ++ lit "rDE-101" ++ [30])
  ++ (lit "047C " ++ [31] ++ lit "Sswd" ++ [31] ++ lit "ipt" ++ [31] ++ lit "aGoethe, Johann Wolfgang {von: Faust II" ++ [31] ++ lit "04099198-2" ++ [30])
  ++ (lit "050C " ++ [31] ++ lit "aFaust I und II gelten als 2 Teile eines Gesamtwerkes Faust, daher die Zählung beim bevorzugten Titel" ++ [30])
  ++ (lit "050C " ++ [31] ++ lit "aWerktitel als Wissensraum" ++ [31] ++ lit "5DE-32" ++ [30])
  ++ (lit "050E " ++ [31] ++ lit "aKindler (3. Aufl.)" ++ [30])
  ++ (lit "050E " ++ [31] ++ lit "aMeid, V.: Metzler Literatur Chronik. - 2006" ++ [30])
  ++ (lit "050E " ++ [31] ++ lit "aStein, P.; H. Stein: Chronik der deutschen Literatur. - 2008" ++ [30])
  ++ (lit "050E " ++ [31] ++ lit "aDeutsches Textarchiv" ++ [31] ++ lit "bStand: 05.07.2017" ++ [31] ++ lit "uhttp://www.deutschestextarchiv.de/goethe_faust02_1832" ++ [30])
  ++ (lit "050E " ++ [31] ++ lit "aGoethe, Johann Wolfgang: Poetische Werke (Berliner Ausgabe) ; Bd. 8. - 1965, S. 301ff und S. 850ff" ++ [30])
  ++ (lit "050E " ++ [31] ++ lit "aWikipedia" ++ [31] ++ lit "bStand: 25.11.2020" ++ [31] ++ lit "uhttps://de.wikipedia.org/w/index.php?title=Faust._Der_Tragödie_zweiter_Teil&oldid=205252571" ++ [30])
  ++ (lit "050G " ++ [31] ++ lit "bZeit- und Sachbezug: zweiter Teil des Goetheschen Faust-Dramas im Anschluß an den ersten Teil (1808) in 5 Akten. Bereits ab 1800 konzipiert, ab 1825 umfassend ausgearbeitet." ++ [30])
  ++ (lit "050G " ++ [31] ++ lit "bInhalt: das fortgesetzte Streben Fausts nach Erkenntnis und Genuß, nun in der großen Welt (Erster Akt: Kaiserliche Pfalz ; Zweiter Akt: Hochgewölbtes gotisches Zimmer. Klassische Walpurgisnacht ; Dritter Akt: Palast des Menelas (Helena-Tragödie) ; Vierter Akt: Hochgebirg. Auf dem Vorgebirg. Gegenkaisers Zelt ; Fünfter Akt: Offene Gegend. Palast. Tiefe Nacht. Mittternacht. Großer Vorhof des Palasts. Grablegung. Bergschluchten. Zum Schluss kann Faust letztendlich doch Erlösung finden. Engelschor: ""Wer immer strebend sich bemüht, den werden wir erlösen""." ++ [30])
  ++ (lit "050G " ++ [31] ++ lit "bÜberlieferung: Erstdruck 1832 in der Ausgabe letzter Hand (Nachlaßband 1). 1852 durch Eckermann erstmals inszeniert (1. Akt)." ++ [30])
  ++ (lit "060R " ++ [31] ++ lit "c1832" ++ [31] ++ lit "4datj" ++ [30])
  ++ (lit "060R " ++ [31] ++ lit "a1825" ++ [31] ++ lit "b1831" ++ [31] ++ lit "4dats" ++ [30])
  ++ [10].

(** /repo/tests/data/DUMP.dat.gz, decompressed, line 7 *)
Definition dump_7 : bytes :=
  (lit "001A " ++ [31] ++ lit "01250:01-07-88" ++ [30])
  ++ (lit "001B " ++ [31] ++ lit "01764:01-07-22" ++ [31] ++ lit "t18:43:39.000" ++ [30])
  ++ (lit "001D " ++ [31] ++ lit "09999:17-01-09" ++ [30])
  ++ (lit "001U " ++ [31] ++ lit "0utf8" ++ [30])
  ++ (lit "001X " ++ [31] ++ lit "00" ++ [30])
  ++ (lit "002@ " ++ [31] ++ lit "0Tu1" ++ [30])
  ++ (lit "003@ " ++ [31] ++ lit "0041274377" ++ [30])
  ++ (lit "003U " ++ [31] ++ lit "ahttp://d-nb.info/gnd/4127437-4" ++ [30])
  ++ (lit "004B " ++ [31] ++ lit "awit" ++ [30])
  ++ (lit "007K " ++ [31] ++ lit "agnd" ++ [31] ++ lit "04127437-4" ++ [30])
  ++ (lit "007N " ++ [31] ++ lit "aswd" ++ [31] ++ lit "04127437-4" ++ [31] ++ lit "vzg" ++ [30])
  ++ (lit "008A " ++ [31] ++ lit "as" ++ [31] ++ lit "af" ++ [30])
  ++ (lit "008B " ++ [31] ++ lit "aw" ++ [31] ++ lit "ao" ++ [31] ++ lit "av" ++ [30])
  ++ (lit "010E " ++ [31] ++ lit "erda" ++ [30])
  ++ (lit "022@ " ++ [31] ++ lit "aFaust a Margaréta" ++ [31] ++ lit "vISO639: slo" ++ [30])
  ++ (lit "022@ " ++ [31] ++ lit "aFaust, frühere Fassung (""Urfaust"")" ++ [31] ++ lit "vISO639: ger" ++ [30])
  ++ (lit "022@ " ++ [31] ++ lit "aFaust in der ursprünglichen Gestalt" ++ [31] ++ lit "vISO639: ger" ++ [30])
  ++ (lit "022@ " ++ [31] ++ lit "aFaust in ursprünglicher Gestalt" ++ [31] ++ lit "vISO639: ger" ++ [30])
  ++ (lit "022@ " ++ [31] ++ lit "aFausto zero" ++ [31] ++ lit "vISO639: por" ++ [30])
  ++ (lit "022@ " ++ [31] ++ lit "aGoethes Faust in ursprünglicher dichterischer Gestalt (der Urfaust)" ++ [31] ++ lit "vISO639: ger" ++ [30])
  ++ (lit "022@ " ++ [31] ++ lit "aGoethes Faust in ursprünglicher Gestalt nach der Göchhausenschen Abschrift" ++ [31] ++ lit "vISO639: ger" ++ [30])
  ++ (lit "022@ " ++ [31] ++ lit "aGoethes Faust in ursprünglicher Gestalt (Urfaust)" ++ [31] ++ lit "vISO639: ger" ++ [30])
  ++ (lit "022@ " ++ [31] ++ lit "aGoethes Faust in ursprünglicher Gestalt" ++ [31] ++ lit "vISO639: ger" ++ [30])
  ++ (lit "022@ " ++ [31] ++ lit "aGoethes Faust nach ältester Aufzeichnung 1771-1775" ++ [31] ++ lit "vISO639: ger" ++ [30])
  ++ (lit "022@ " ++ [31] ++ lit "aDe @Oer-Faust" ++ [31] ++ lit "vISO639: dut" ++ [30])
  ++ (lit "022@ " ++ [31] ++ lit "aŐs-Faust" ++ [31] ++ lit "vISO639: hun" ++ [30])
  ++ (lit "022@ " ++ [31] ++ lit "aPrafaust" ++ [31] ++ lit "vISO639: hrv" ++ [30])
  ++ (lit "022@ " ++ [31] ++ lit "aPrafaust (Faust a Margaréta)" ++ [30])
  ++ (lit "022@ " ++ [31] ++ lit "aDer @Urfaust" ++ [31] ++ lit "vISO639: ger" ++ [30])
  ++ (lit "022@ " ++ [31] ++ lit "aThe @Urfaust" ++ [31] ++ lit "vISO639: eng" ++ [30])
  ++ (lit "022@ " ++ [31] ++ lit "aDer @Ur-Faust" ++ [31] ++ lit "vISO639: ger" ++ [30])
  ++ (lit "022@ " ++ [31] ++ lit "a(Ur)Faust" ++ [31] ++ lit "vISO639: dan" ++ [30])
  ++ (lit "022A " ++ [31] ++ lit "aUrfaust" ++ [30])
  ++ (lit "022R " ++ [31] ++ lit "9964262134" ++ [31] ++ lit "7Tpz" ++ [31] ++ lit "Vpiz" ++ [31] ++ lit "Agnd" ++ [31] ++ lit "0118540238" ++ [31] ++ lit "E1749" ++ [31] ++ lit "G1832" ++ [31] ++ lit "dJohann Wolfgang" ++ [31] ++ lit "aGoethe" ++ [31] ++ lit "cvon" ++ [31] ++ lit "7Tu1" ++ [31] ++ lit "Vwit" ++ [31] ++ lit "Agnd" ++ [31] ++ lit "04682136-3" ++ [31] ++ lit "tFaust. Ein Fragment" ++ [31] ++ lit "4nach" ++ [31] ++ lit "vGefolgt von" ++ [30])
  ++ (lit "022R " ++ [31] ++ lit "9041281403" ++ [31] ++ lit "7Tpz" ++ [31] ++ lit "Vpiz" ++ [31] ++ lit "Agnd" ++ [31] ++ lit "0118540238" ++ [31] ++ lit "E1749" ++ [31] ++ lit "G1832" ++ [31] ++ lit "dJohann Wolfgang" ++ [31] ++ lit "aGoethe" ++ [31] ++ lit "cvon" ++ [31] ++ lit "7Tu1" ++ [31] ++ lit "Vwit" ++ [31] ++ lit "Agnd" ++ [31] ++ lit "04128140-8" ++ [31] ++ lit "tFaust" ++ [31] ++ lit "4nach" ++ [31] ++ lit "vGefolgt von" ++ [30])
  ++ (lit "022R " ++ [31] ++ lit "9955256321" ++ [31] ++ lit "7Tpz" ++ [31] ++ lit "Vpiz" ++ [31] ++ lit "Agnd" ++ [31] ++ lit "0118540238" ++ [31] ++ lit "E1749" ++ [31] ++ lit "G1832" ++ [31] ++ lit "dJohann Wolfgang" ++ [31] ++ lit "aGoethe" ++ [31] ++ lit "cvon" ++ [31] ++ lit "7Tu1" ++ [31] ++ lit "Vwit" ++ [31] ++ lit "Agnd" ++ [31] ++ lit "04524379-7" ++ [31] ++ lit "tFaust" ++ [31] ++ lit "n1" ++ [31] ++ lit "pAch neige, du Schmerzensreiche" ++ [31] ++ lit "4rela" ++ [31] ++ lit "vEnthält" ++ [30])
  ++ (lit "022R " ++ [31] ++ lit "91233492144" ++ [31] ++ lit "7Tp3" ++ [31] ++ lit "Vpiz" ++ [31] ++ lit "Agnd" ++ [31] ++ lit "01220468037" ++ [31] ++ lit "E1943" ++ [31] ++ lit "G2006" ++ [31] ++ lit "dGünter" ++ [31] ++ lit "aSchimm" ++ [31] ++ lit "7Tu3" ++ [31] ++ lit "Vwim" ++ [31] ++ lit "Agnd" ++ [31] ++ lit "01233492144" ++ [31] ++ lit "tUrfaust" ++ [31] ++ lit "4rela" ++ [31] ++ lit "vSchauspielmusik" ++ [30])
  ++ (lit "022R " ++ [31] ++ lit "91248572998" ++ [31] ++ lit "7Tp1" ++ [31] ++ lit "Vpiz" ++ [31] ++ lit "Agnd" ++ [31] ++ lit "0118524917" ++ [31] ++ lit "E1894" ++ [31] ++ lit "G1979" ++ [31] ++ lit "dPaul" ++ [31] ++ lit "aDessau" ++ [31] ++ lit "7Tu3" ++ [31] ++ lit "Vwim" ++ [31] ++ lit "Agnd" ++ [31] ++ lit "01248572998" ++ [31] ++ lit "tUrfaust" ++ [31] ++ lit "4rela" ++ [31] ++ lit "vSchauspielmusik" ++ [30])
  ++ (lit "022R " ++ [31] ++ lit "91248573048" ++ [31] ++ lit "7Tp1" ++ [31] ++ lit "Vpiz" ++ [31] ++ lit "Agnd" ++ [31] ++ lit "011852397X" ++ [31] ++ lit "E1895" ++ [31] ++ lit "G1977" ++ [31] ++ lit "dJohann Nepomuk" ++ [31] ++ lit "aDavid" ++ [31] ++ lit "7Tu3" ++ [31] ++ lit "Vwim" ++ [31] ++ lit "Agnd" ++ [31] ++ lit "01248573048" ++ [31] ++ lit "tUrfaust" ++ [31] ++ lit "4rela" ++ [31] ++ lit "vSchauspielmusik" ++ [30])
  ++ (lit "022R " ++ [31] ++ lit "91248573102" ++ [31] ++ lit "7Tp1" ++ [31] ++ lit "Vpiz" ++ [31] ++ lit "Agnd" ++ [31] ++ lit "0103785795" ++ [31] ++ lit "E1945" ++ [31] ++ lit "dRóbert" ++ [31] ++ lit "aWittinger" ++ [31] ++ lit "7Tu3" ++ [31] ++ lit "Vwim" ++ [31] ++ lit "Agnd" ++ [31] ++ lit "01248573102" ++ [31] ++ lit "tUrfaust" ++ [31] ++ lit "4rela" ++ [31] ++ lit "vSchauspielmusik" ++ [30])
  ++ (lit "022R " ++ [31] ++ lit "91248573110" ++ [31] ++ lit "7Tp1" ++ [31] ++ lit "Vpip" ++ [31] ++ lit "Agnd" ++ [31] ++ lit "0118729179" ++ [31] ++ lit "E1902" ++ [31] ++ lit "G1985" ++ [31] ++ lit "dMark" ++ [31] ++ lit "aLothar" ++ [31] ++ lit "7Tu3" ++ [31] ++ lit "Vwim" ++ [31] ++ lit "Agnd" ++ [31] ++ lit "01248573110" ++ [31] ++ lit "tUrfaust" ++ [31] ++ lit "4rela" ++ [31] ++ lit "vSchauspielmusik" ++ [30])
  ++ (lit "022R " ++ [31] ++ lit "91248573153" ++ [31] ++ lit "7Tp1" ++ [31] ++ lit "Vpiz" ++ [31] ++ lit "Agnd" ++ [31] ++ lit "0118563572" ++ [31] ++ lit "E1881" ++ [31] ++ lit "G1951" ++ [31] ++ lit "dArmin" ++ [31] ++ lit "aKnab" ++ [31] ++ lit "7Tu3" ++ [31] ++ lit "Vwim" ++ [31] ++ lit "Agnd" ++ [31] ++ lit "01248573153" ++ [31] ++ lit "tUrfaust" ++ [31] ++ lit "4rela" ++ [31] ++ lit "vSchauspielmusik" ++ [30])
  ++ (lit "022R " ++ [31] ++ lit "9124857320X" ++ [31] ++ lit "7Tp1" ++ [31] ++ lit "Vpiz" ++ [31] ++ lit "Agnd" ++ [31] ++ lit "0118991035" ++ [31] ++ lit "E1848" ++ [31] ++ lit "G1907" ++ [31] ++ lit "dCyrill" ++ [31] ++ lit "aKistler" ++ [31] ++ lit "7Tu3" ++ [31] ++ lit "Vwim" ++ [31] ++ lit "Agnd" ++ [31] ++ lit "0124857320X" ++ [31] ++ lit "tFaust I.Tl." ++ [31] ++ lit "4rela" ++ [31] ++ lit "vBearbeitet als Musiktheaterstück" ++ [30])
  ++ (lit "022R " ++ [31] ++ lit "91248573250" ++ [31] ++ lit "7Tp1" ++ [31] ++ lit "Vpiz" ++ [31] ++ lit "Agnd" ++ [31] ++ lit "0121937321" ++ [31] ++ lit "E1928" ++ [31] ++ lit "G2022" ++ [31] ++ lit "dRené" ++ [31] ++ lit "aClemencic" ++ [31] ++ lit "7Tu3" ++ [31] ++ lit "Vwim" ++ [31] ++ lit "Agnd" ++ [31] ++ lit "01248573250" ++ [31] ++ lit "tUrfaust" ++ [31] ++ lit "4rela" ++ [31] ++ lit "vSchauspielmusik" ++ [30])
  ++ (lit "022R " ++ [31] ++ lit "91248573358" ++ [31] ++ lit "7Tp3" ++ [31] ++ lit "Vpiz" ++ [31] ++ lit "Agnd" ++ [31] ++ lit "01114081272" ++ [31] ++ lit "E1941" ++ [31] ++ lit "dHeidemarie" ++ [31] ++ lit "aBöwe" ++ [31] ++ lit "7Tu3" ++ [31] ++ lit "Vwit" ++ [31] ++ lit "Agnd" ++ [31] ++ lit "01248573358" ++ [31] ++ lit "tDer @Urfaust" ++ [31] ++ lit "4rela" ++ [31] ++ lit "vBearbeitet als Hörspiel" ++ [30])
  ++ (lit "022R " ++ [31] ++ lit "91248573382" ++ [31] ++ lit "7Tp3" ++ [31] ++ lit "Vpiz" ++ [31] ++ lit "Agnd" ++ [31] ++ lit "01114081272" ++ [31] ++ lit "E1941" ++ [31] ++ lit "dHeidemarie" ++ [31] ++ lit "aBöwe" ++ [31] ++ lit "7Tu3" ++ [31] ++ lit "Vwit" ++ [31] ++ lit "Agnd" ++ [31] ++ lit "01248573382" ++ [31] ++ lit "tDer @Urfaust" ++ [31] ++ lit "gHörspielmanuskript" ++ [31] ++ lit "4rela" ++ [31] ++ lit "vBearbeitet als Hörspielmanuskript" ++ [30])
  ++ (lit "022R " ++ [31] ++ lit "91248573528" ++ [31] ++ lit "7Tp2" ++ [31] ++ lit "Vpiz" ++ [31] ++ lit "Agnd" ++ [31] ++ lit "0123088275" ++ [31] ++ lit "E1926" ++ [31] ++ lit "G2007" ++ [31] ++ lit "dPeter" ++ [31] ++ lit "aSchulze-Rohr" ++ [31] ++ lit "7Tu3" ++ [31] ++ lit "Vwit" ++ [31] ++ lit "Agnd" ++ [31] ++ lit "01248573528" ++ [31] ++ lit "tDer @Urfaust" ++ [31] ++ lit "4rela" ++ [31] ++ lit "vBearbeitet als Hörspiel" ++ [30])
  ++ (lit "022R " ++ [31] ++ lit "91248573544" ++ [31] ++ lit "7Tp2" ++ [31] ++ lit "Vpiz" ++ [31] ++ lit "Agnd" ++ [31] ++ lit "0123088275" ++ [31] ++ lit "E1926" ++ [31] ++ lit "G2007" ++ [31] ++ lit "dPeter" ++ [31] ++ lit "aSchulze-Rohr" ++ [31] ++ lit "7Tu3" ++ [31] ++ lit "Vwit" ++ [31] ++ lit "Agnd" ++ [31] ++ lit "01248573544" ++ [31] ++ lit "tDer @Urfaust" ++ [31] ++ lit "gHörspielmanuskript" ++ [31] ++ lit "4rela" ++ [31] ++ lit "vBearbeitet als Hörspielmanuskript" ++ [30])
  ++ (lit "022R " ++ [31] ++ lit "91248573579" ++ [31] ++ lit "7Tp1" ++ [31] ++ lit "Vpiz" ++ [31] ++ lit "Agnd" ++ [31] ++ lit "0118502786" ++ [31] ++ lit "E1914" ++ [31] ++ lit "G1980" ++ [31] ++ lit "dAlfred" ++ [31] ++ lit "aAndersch" ++ [31] ++ lit "7Tu3" ++ [31] ++ lit "Vwit" ++ [31] ++ lit "Agnd" ++ [31] ++ lit "01248573579" ++ [31] ++ lit "tUrfaust" ++ [31] ++ lit "4rela" ++ [31] ++ lit "vBearbeitet als Hörspiel" ++ [30])
  ++ (lit "022R " ++ [31] ++ lit "91248573609" ++ [31] ++ lit "7Tp1" ++ [31] ++ lit "Vpiz" ++ [31] ++ lit "Agnd" ++ [31] ++ lit "0118502786" ++ [31] ++ lit "E1914" ++ [31] ++ lit "G1980" ++ [31] ++ lit "dAlfred" ++ [31] ++ lit "aAndersch" ++ [31] ++ lit "7Tu3" ++ [31] ++ lit "Vwit" ++ [31] ++ lit "Agnd" ++ [31] ++ lit "01248573609" ++ [31] ++ lit "tUrfaust" ++ [31] ++ lit "gHörspielmanuskript" ++ [31] ++ lit "4rela" ++ [31] ++ lit "vBearbeitet als Hörspielmanuskript" ++ [30])
  ++ (lit "028R " ++ [31] ++ lit "9118540238" ++ [31] ++ lit "7Tpz" ++ [31] ++ lit "Vpiz" ++ [31] ++ lit "Agnd" ++ [31] ++ lit "0118540238" ++ [31] ++ lit "E1749" ++ [31] ++ lit "G1832" ++ [31] ++ lit "dJohann Wolfgang" ++ [31] ++ lit "aGoethe" ++ [31] ++ lit "cvon" ++ [31] ++ lit "4aut1" ++ [30])
  ++ (lit "032W " ++ [31] ++ lit "9040128997" ++ [31] ++ lit "7Tsz" ++ [31] ++ lit "Vsaz" ++ [31] ++ lit "Agnd" ++ [31] ++ lit "04012899-4" ++ [31] ++ lit "aDrama" ++ [30])
  ++ (lit "041R " ++ [31] ++ lit "9040582744" ++ [31] ++ lit "7Ts1" ++ [31] ++ lit "Vsaz" ++ [31] ++ lit "Agnd" ++ [31] ++ lit "04058274-7" ++ [31] ++ lit "aSturm und Drang" ++ [31] ++ lit "4obal" ++ [30])
  ++ (lit "042A " ++ [31] ++ lit "a12.2p" ++ [30])
  ++ (lit "042B " ++ [31] ++ lit "aXA-DE" ++ [30])
  ++ (lit "042C " ++ [31] ++ lit "ager" ++ [30])
  ++ (lit "047A/03 " ++ [31] ++ lit "eDE-101" ++ [30])
  ++ (lit "047A/03 " ++ [31] ++ lit "rDE-101" ++ [30])
  ++ (lit "047C " ++ [31] ++ lit "Sswd" ++ [31] ++ lit "ipt" ++ [31] ++ lit "aGoethe, Johann Wolfgang {von: Urfaust" ++ [31] ++ lit "04127437-4" ++ [30])
  ++ (lit "050C " ++ [31] ++ lit "aWerktitel als Wissensraum" ++ [31] ++ lit "5DE-32" ++ [30])
  ++ (lit "050E " ++ [31] ++ lit "aGoethe, Johann Wolfgang: Poetische Werke (Berliner Ausgabe), Bd. 8, Berlin 1965, S. 5-143 und S. 795ff" ++ [30])
  ++ (lit "050G " ++ [31] ++ lit "bZeit- und Sachbezug: ursprüngliche Fassung 1774/75, 1775 aus Frankfurt im Manuskript nach Weimar mitgebracht, dort in den geselligen Kreisen vorgelesen, wurde das Manuskript von der Hofdame Luise von Göchhausen abgeschrieben. Diese Abschrift wurde 1887 von Erich Schmidt wieder aufgefunden und veröffentlicht. Das originale Manuskript von Goethe ist dagegen verschollen. - Inhalt: Enthält schon wesentliche Teile der Szenen ""Nacht"", ""Mephisto und Student"", ""Paktszene"" sowie Teile der Gretchen-Tragödie. Die Wette zwischen Faust und Mephisto fehlt, ebenso ""Hexenküche"" und ""Walpurgisnacht"". - Überlieferung: Erstdruck 1887 u.d.T. ""Goethes Faust in ursprünglicher Gestalt nach der Göchhausenschen Abschrift""." ++ [30])
  ++ (lit "060R " ++ [31] ++ lit "c1887" ++ [31] ++ lit "4datj" ++ [30])
  ++ (lit "060R " ++ [31] ++ lit "c1774" ++ [31] ++ lit "4dats" ++ [30])
  ++ [10].

(** /repo/tests/data/DUMP.dat.gz, decompressed, line 8 *)
Definition dump_8 : bytes :=
  (lit "001A " ++ [31] ++ lit "01150:19-04-02" ++ [30])
  ++ (lit "001B " ++ [31] ++ lit "01764:04-05-22" ++ [31] ++ lit "t09:53:17.000" ++ [30])
  ++ (lit "001D " ++ [31] ++ lit "09999:17-01-09" ++ [30])
  ++ (lit "001U " ++ [31] ++ lit "0utf8" ++ [30])
  ++ (lit "001X " ++ [31] ++ lit "00" ++ [30])
  ++ (lit "002@ " ++ [31] ++ lit "0Tu1" ++ [30])
  ++ (lit "003@ " ++ [31] ++ lit "0964262134" ++ [30])
  ++ (lit "003U " ++ [31] ++ lit "ahttp://d-nb.info/gnd/4682136-3" ++ [30])
  ++ (lit "004B " ++ [31] ++ lit "awit" ++ [30])
  ++ (lit "006Y " ++ [31] ++ lit "Swikidata" ++ [31] ++ lit "0Q110898949" ++ [30])
  ++ (lit "007K " ++ [31] ++ lit "agnd" ++ [31] ++ lit "04682136-3" ++ [30])
  ++ (lit "007N " ++ [31] ++ lit "aswd" ++ [31] ++ lit "04682136-3" ++ [31] ++ lit "vzg" ++ [30])
  ++ (lit "008A " ++ [31] ++ lit "as" ++ [31] ++ lit "af" ++ [30])
  ++ (lit "008B " ++ [31] ++ lit "aw" ++ [31] ++ lit "ao" ++ [31] ++ lit "av" ++ [30])
  ++ (lit "010E " ++ [31] ++ lit "erda" ++ [30])
  ++ (lit "022@ " ++ [31] ++ lit "aFaust, ein Fragment" ++ [30])
  ++ (lit "022@ " ++ [31] ++ lit "aFaust-Fragment" ++ [31] ++ lit "vVorlage" ++ [30])
  ++ (lit "022A " ++ [31] ++ lit "aFaust. Ein Fragment" ++ [30])
  ++ (lit "022R " ++ [31] ++ lit "9041274377" ++ [31] ++ lit "7Tpz" ++ [31] ++ lit "Vpiz" ++ [31] ++ lit "Agnd" ++ [31] ++ lit "0118540238" ++ [31] ++ lit "E1749" ++ [31] ++ lit "G1832" ++ [31] ++ lit "dJohann Wolfgang" ++ [31] ++ lit "aGoethe" ++ [31] ++ lit "cvon" ++ [31] ++ lit "7Tu1" ++ [31] ++ lit "Vwit" ++ [31] ++ lit "Agnd" ++ [31] ++ lit "04127437-4" ++ [31] ++ lit "tUrfaust" ++ [31] ++ lit "4vorg" ++ [31] ++ lit "vVorangegangen ist" ++ [30])
  ++ (lit "022R " ++ [31] ++ lit "9041281403" ++ [31] ++ lit "7Tpz" ++ [31] ++ lit "Vpiz" ++ [31] ++ lit "Agnd" ++ [31] ++ lit "0118540238" ++ [31] ++ lit "E1749" ++ [31] ++ lit "G1832" ++ [31] ++ lit "dJohann Wolfgang" ++ [31] ++ lit "aGoethe" ++ [31] ++ lit "cvon" ++ [31] ++ lit "7Tu1" ++ [31] ++ lit "Vwit" ++ [31] ++ lit "Agnd" ++ [31] ++ lit "04128140-8" ++ [31] ++ lit "tFaust" ++ [31] ++ lit "4nach" ++ [31] ++ lit "vGefolgt von" ++ [30])
  ++ (lit "022R " ++ [31] ++ lit "9948795492" ++ [31] ++ lit "7Tp1" ++ [31] ++ lit "Vpiz" ++ [31] ++ lit "Agnd" ++ [31] ++ lit "0118563319" ++ [31] ++ lit "E1752" ++ [31] ++ lit "G1831" ++ [31] ++ lit "dFriedrich Maximilian" ++ [31] ++ lit "aKlinger" ++ [31] ++ lit "cvon" ++ [31] ++ lit "7Tu1" ++ [31] ++ lit "Vwit" ++ [31] ++ lit "Agnd" ++ [31] ++ lit "04426843-9" ++ [31] ++ lit "tFausts Leben, Taten und Höllenfahrt" ++ [31] ++ lit "4rela" ++ [31] ++ lit "vAnregung für" ++ [30])
  ++ (lit "022R " ++ [31] ++ lit "9955256321" ++ [31] ++ lit "7Tpz" ++ [31] ++ lit "Vpiz" ++ [31] ++ lit "Agnd" ++ [31] ++ lit "0118540238" ++ [31] ++ lit "E1749" ++ [31] ++ lit "G1832" ++ [31] ++ lit "dJohann Wolfgang" ++ [31] ++ lit "aGoethe" ++ [31] ++ lit "cvon" ++ [31] ++ lit "7Tu1" ++ [31] ++ lit "Vwit" ++ [31] ++ lit "Agnd" ++ [31] ++ lit "04524379-7" ++ [31] ++ lit "tFaust" ++ [31] ++ lit "n1" ++ [31] ++ lit "pAch neige, du Schmerzensreiche" ++ [31] ++ lit "4rela" ++ [31] ++ lit "vEnthält" ++ [30])
  ++ (lit "022R " ++ [31] ++ lit "9954066170" ++ [31] ++ lit "7Tpz" ++ [31] ++ lit "Vpiz" ++ [31] ++ lit "Agnd" ++ [31] ++ lit "0118540238" ++ [31] ++ lit "E1749" ++ [31] ++ lit "G1832" ++ [31] ++ lit "dJohann Wolfgang" ++ [31] ++ lit "aGoethe" ++ [31] ++ lit "cvon" ++ [31] ++ lit "7Tu1" ++ [31] ++ lit "Vwit" ++ [31] ++ lit "Agnd" ++ [31] ++ lit "04508326-5" ++ [31] ++ lit "tFaust" ++ [31] ++ lit "n1" ++ [31] ++ lit "pHexen-Einmal-Eins" ++ [31] ++ lit "4rela" ++ [31] ++ lit "vEnthält" ++ [30])
  ++ (lit "028R " ++ [31] ++ lit "9118540238" ++ [31] ++ lit "7Tpz" ++ [31] ++ lit "Vpiz" ++ [31] ++ lit "Agnd" ++ [31] ++ lit "0118540238" ++ [31] ++ lit "E1749" ++ [31] ++ lit "G1832" ++ [31] ++ lit "dJohann Wolfgang" ++ [31] ++ lit "aGoethe" ++ [31] ++ lit "cvon" ++ [31] ++ lit "4aut1" ++ [30])
  ++ (lit "032W " ++ [31] ++ lit "9040128997" ++ [31] ++ lit "7Tsz" ++ [31] ++ lit "Vsaz" ++ [31] ++ lit "Agnd" ++ [31] ++ lit "04012899-4" ++ [31] ++ lit "aDrama" ++ [30])
  ++ (lit "041R " ++ [31] ++ lit "9040309606" ++ [31] ++ lit "7Ts1" ++ [31] ++ lit "Vsaz" ++ [31] ++ lit "Agnd" ++ [31] ++ lit "04030960-5" ++ [31] ++ lit "aKlassik" ++ [31] ++ lit "4obal" ++ [30])
  ++ (lit "042A " ++ [31] ++ lit "a12.2p" ++ [30])
  ++ (lit "042B " ++ [31] ++ lit "aXA-DE" ++ [30])
  ++ (lit "042C " ++ [31] ++ lit "ager" ++ [30])
  ++ (lit "047A/03 " ++ [31] ++ lit "eDE-101" ++ [30])
  ++ (lit "047A/03 " ++ [31] ++ lit "rDE-101" ++ [30])
  ++ (lit "047C " ++ [31] ++ lit "Sswd" ++ [31] ++ lit "ipt" ++ [31] ++ lit "aGoethe, Johann Wolfgang {von: Faust. Ein Fragment" ++ [31] ++ lit "04682136-3" ++ [30])
  ++ (lit "050C " ++ [31] ++ lit "aWerktitel als Wissensraum" ++ [31] ++ lit "5DE-32" ++ [30])
  ++ (lit "050E " ++ [31] ++ lit "aKindler (3. Aufl., online) unter Goethe: Faust" ++ [30])
  ++ (lit "050E " ++ [31] ++ lit "aKosch Lit." ++ [30])
  ++ (lit "050E " ++ [31] ++ lit "aMeid, Volker: Metzler Literatur Chronik, 3., erw. Aufl., 2006" ++ [30])
  ++ (lit "050E " ++ [31] ++ lit "aFrenzel Daten" ++ [30])
  ++ (lit "050G " ++ [31] ++ lit "bEpoche: Klassik" ++ [30])
  ++ (lit "050G " ++ [31] ++ lit "bZeit- und Sachbezug: Aus dem ""Urfaust"" entstandene Version des ""Faust""." ++ [30])
  ++ (lit "050G " ++ [31] ++ lit "bInhalt: Gegenüber dem Urfaust ist das Faustfragment um einen Dialog mit Mephisto erweitert, in dem der Teufelspakt jedoch noch unausgesprochen bleibt. Neu hinzugekommen ist die Szene Hexenküche, dafür fehlt Gretchens Ende im Kerker. Das Stück endet mit der Szene im Dom. Neben der Liebestragödie um Gretchen wird die Tragödie des zweifelnden und scheiternden Wissenschaftlers sichtbar." ++ [30])
  ++ (lit "050G " ++ [31] ++ lit "bÜberlieferung: Wurde 1790 gedruckt." ++ [30])
  ++ (lit "060R " ++ [31] ++ lit "c1790" ++ [31] ++ lit "4datj" ++ [30])
  ++ (lit "060R " ++ [31] ++ lit "a1786" ++ [31] ++ lit "b1789" ++ [31] ++ lit "4dats" ++ [30])
  ++ [10].

(** /repo/tests/data/DUMP.dat.gz, decompressed, line 9 *)
Definition dump_9 : bytes :=
  (lit "001A " ++ [31] ++ lit "01250:01-07-88" ++ [30])
  ++ (lit "001B " ++ [31] ++ lit "09999:15-04-22" ++ [31] ++ lit "t15:15:00.000" ++ [30])
  ++ (lit "001D " ++ [31] ++ lit "09999:06-09-19" ++ [30])
  ++ (lit "001U " ++ [31] ++ lit "0utf8" ++ [30])
  ++ (lit "001X " ++ [31] ++ lit "00" ++ [30])
  ++ (lit "002@ " ++ [31] ++ lit "0Tsz" ++ [30])
  ++ (lit "003@ " ++ [31] ++ lit "0040533093" ++ [30])
  ++ (lit "003U " ++ [31] ++ lit "ahttp://d-nb.info/gnd/4053309-8" ++ [31] ++ lit "zhttp://d-nb.info/gnd/7791307-3" ++ [30])
  ++ (lit "004B " ++ [31] ++ lit "asaz" ++ [30])
  ++ (lit "007K " ++ [31] ++ lit "agnd" ++ [31] ++ lit "04053309-8" ++ [30])
  ++ (lit "007N " ++ [31] ++ lit "agnd" ++ [31] ++ lit "07791307-3" ++ [30])
  ++ (lit "007N " ++ [31] ++ lit "aswd" ++ [31] ++ lit "07791307-3" ++ [31] ++ lit "vzg" ++ [30])
  ++ (lit "007N " ++ [31] ++ lit "aswd" ++ [31] ++ lit "04053309-8" ++ [31] ++ lit "vzg" ++ [30])
  ++ (lit "008A " ++ [31] ++ lit "as" ++ [30])
  ++ (lit "008B " ++ [31] ++ lit "aw" ++ [31] ++ lit "az" ++ [31] ++ lit "ao" ++ [30])
  ++ (lit "037G " ++ [31] ++ lit "c809" ++ [31] ++ lit "d1" ++ [31] ++ lit "t2009-10-13" ++ [30])
  ++ (lit "041@ " ++ [31] ++ lit "aDichter" ++ [30])
  ++ (lit "041@ " ++ [31] ++ lit "aLiteraturproduzent" ++ [30])
  ++ (lit "041@ " ++ [31] ++ lit "aLiterat" ++ [30])
  ++ (lit "041@ " ++ [31] ++ lit "aHomme de lettres" ++ [30])
  ++ (lit "041A " ++ [31] ++ lit "aSchriftsteller" ++ [30])
  ++ (lit "041P " ++ [31] ++ lit "Leng" ++ [31] ++ lit "91134499655" ++ [31] ++ lit "aAuthors" ++ [31] ++ lit "uhttps://id.loc.gov/authorities/subjects/sh85009793" ++ [31] ++ lit "SDLC" ++ [31] ++ lit "0sh85009793" ++ [31] ++ lit "2lcsh" ++ [31] ++ lit "4ftaa" ++ [30])
  ++ (lit "041P " ++ [31] ++ lit "Lfre" ++ [31] ++ lit "91134499655" ++ [31] ++ lit "aÉcrivains" ++ [31] ++ lit "uhttps://data.bnf.fr/ark:/12148/cb11936327s" ++ [31] ++ lit "SFrPBN" ++ [31] ++ lit "0FRBNF119363276" ++ [31] ++ lit "2ram" ++ [31] ++ lit "4ftaa" ++ [30])
  ++ (lit "041P " ++ [31] ++ lit "Lita" ++ [31] ++ lit "91254325441" ++ [31] ++ lit "aScrittori" ++ [31] ++ lit "uhttps://purl.org/bncf/tid/3533" ++ [31] ++ lit "SIt" ++ [31] ++ lit "03533" ++ [31] ++ lit "2nsbncf" ++ [31] ++ lit "4ftaa" ++ [30])
  ++ (lit "041P " ++ [31] ++ lit "Lspa" ++ [31] ++ lit "91254511725" ++ [31] ++ lit "aEscritores" ++ [31] ++ lit "uhttps://datos.bne.es/resource/XX526944" ++ [31] ++ lit "SSpMaBN" ++ [31] ++ lit "0XX526944" ++ [31] ++ lit "2embne" ++ [31] ++ lit "4ftaa" ++ [30])
  ++ (lit "041P " ++ [31] ++ lit "9970587872" ++ [31] ++ lit "aSchriftsteller" ++ [31] ++ lit "uhttp://lod.gesis.org/thesoz/concept_10041010" ++ [31] ++ lit "SGESIS" ++ [31] ++ lit "010041010" ++ [31] ++ lit "2thesoz" ++ [31] ++ lit "4ftae" ++ [30])
  ++ (lit "041R " ++ [31] ++ lit "904003982X" ++ [31] ++ lit "7Ts1" ++ [31] ++ lit "Vsaz" ++ [31] ++ lit "Agnd" ++ [31] ++ lit "04003982-1" ++ [31] ++ lit "aAutor" ++ [31] ++ lit "4obge" ++ [30])
  ++ (lit "041R " ++ [31] ++ lit "9040359646" ++ [31] ++ lit "7Tsz" ++ [31] ++ lit "Vsaz" ++ [31] ++ lit "Agnd" ++ [31] ++ lit "04035964-5" ++ [31] ++ lit "aLiteratur" ++ [31] ++ lit "4vbal" ++ [30])
  ++ (lit "041R " ++ [31] ++ lit "9040533115" ++ [31] ++ lit "7Ts1" ++ [31] ++ lit "Vsaz" ++ [31] ++ lit "Agnd" ++ [31] ++ lit "04053311-6" ++ [31] ++ lit "aSchriftstellerin" ++ [31] ++ lit "4vbal" ++ [30])
  ++ (lit "042A " ++ [31] ++ lit "a12.1b" ++ [31] ++ lit "a9.4ab" ++ [30])
  ++ (lit "047A/03 " ++ [31] ++ lit "eDE-101" ++ [30])
  ++ (lit "047A/03 " ++ [31] ++ lit "rDE-101" ++ [30])
  ++ (lit "047C " ++ [31] ++ lit "Sswd" ++ [31] ++ lit "is" ++ [31] ++ lit "aSchriftsteller" ++ [31] ++ lit "04053309-8" ++ [30])
  ++ (lit "047C " ++ [31] ++ lit "Sswd" ++ [31] ++ lit "is" ++ [31] ++ lit "aChristlicher Schriftsteller" ++ [31] ++ lit "07791307-3" ++ [30])
  ++ (lit "050C " ++ [31] ++ lit "aBearbeitungssperre (Top500) - Änderungswünsche an DNB" ++ [30])
  ++ (lit "050D " ++ [31] ++ lit "aVerwenden nur wo nicht vermeidbar; sonst s. Literatur; in der Regel wird mit dem Geographikum, nicht mit der Sprachbezeichnung verknüpft; mit einzelnen literarischen Gattungen wird in der Regel kein Kompositum gebildet, sondern mit der Gattungsbezeichnung verknüpft. Ggf. werden die vorhandenen Unterbegriffe sowie die entsprechenden weiblichen Bezeichnungen verwendet. Als Homonymenzusatz bei Personenschlagwörtern zugelassen." ++ [30])
  ++ (lit "050E " ++ [31] ++ lit "aM" ++ [30])
  ++ [10].

(** /repo/tests/data/DUMP.dat.gz, decompressed, line 10 *)
Definition dump_10 : bytes :=
  (lit "001A " ++ [31] ++ lit "01250:01-07-88" ++ [30])
  ++ (lit "001B " ++ [31] ++ lit "01250:30-08-22" ++ [31] ++ lit "t09:23:14.000" ++ [30])
  ++ (lit "001D " ++ [31] ++ lit "09999:17-01-09" ++ [30])
  ++ (lit "001U " ++ [31] ++ lit "0utf8" ++ [30])
  ++ (lit "001X " ++ [31] ++ lit "00" ++ [30])
  ++ (lit "002@ " ++ [31] ++ lit "0Ts1" ++ [30])
  ++ (lit "003@ " ++ [31] ++ lit "0040309606" ++ [30])
  ++ (lit "003U " ++ [31] ++ lit "ahttp://d-nb.info/gnd/4030960-5" ++ [30])
  ++ (lit "004B " ++ [31] ++ lit "asaz" ++ [30])
  ++ (lit "007K " ++ [31] ++ lit "agnd" ++ [31] ++ lit "04030960-5" ++ [30])
  ++ (lit "007N " ++ [31] ++ lit "aswd" ++ [31] ++ lit "04030960-5" ++ [31] ++ lit "vzg" ++ [30])
  ++ (lit "008A " ++ [31] ++ lit "as" ++ [30])
  ++ (lit "008B " ++ [31] ++ lit "aw" ++ [31] ++ lit "az" ++ [31] ++ lit "ao" ++ [30])
  ++ (lit "037G " ++ [31] ++ lit "c780.9033" ++ [31] ++ lit "d2" ++ [31] ++ lit "t2007-01-01" ++ [30])
  ++ (lit "037G " ++ [31] ++ lit "cT3C--142" ++ [31] ++ lit "d3" ++ [31] ++ lit "t2007-01-01" ++ [30])
  ++ (lit "041@ " ++ [31] ++ lit "aDas @Klassische" ++ [30])
  ++ (lit "041A " ++ [31] ++ lit "aKlassik" ++ [30])
  ++ (lit "041P " ++ [31] ++ lit "aClassicism" ++ [31] ++ lit "uhttp://lccn.loc.gov/sh85026714" ++ [31] ++ lit "SDLC" ++ [31] ++ lit "0sh 85026714" ++ [31] ++ lit "2lcsh" ++ [31] ++ lit "vMACS-Mapping. Bitte keine Änderungen vornehmen." ++ [30])
  ++ (lit "041P " ++ [31] ++ lit "aClassicisme" ++ [31] ++ lit "uhttp://data.bnf.fr/11931212" ++ [31] ++ lit "SFrPBN" ++ [31] ++ lit "0FRBNF119312125" ++ [31] ++ lit "2ram" ++ [31] ++ lit "vMACS-Mapping. Bitte keine Änderungen vornehmen." ++ [30])
  ++ (lit "041P " ++ [31] ++ lit "aCivilization, Classical" ++ [31] ++ lit "uhttp://lccn.loc.gov/sh85026450" ++ [31] ++ lit "SDLC" ++ [31] ++ lit "0sh 85026450" ++ [31] ++ lit "2lcsh" ++ [31] ++ lit "vMACS-Mapping. Bitte keine Änderungen vornehmen." ++ [30])
  ++ (lit "041P " ++ [31] ++ lit "aCivilisation classique" ++ [31] ++ lit "uhttp://data.bnf.fr/12035247" ++ [31] ++ lit "SFrPBN" ++ [31] ++ lit "0FRBNF120352476" ++ [31] ++ lit "2ram" ++ [31] ++ lit "vMACS-Mapping. Bitte keine Änderungen vornehmen." ++ [30])
  ++ (lit "042A " ++ [31] ++ lit "a12.2a" ++ [31] ++ lit "a6.1b" ++ [31] ++ lit "a13.1b" ++ [31] ++ lit "a14.1" ++ [30])
  ++ (lit "047A/03 " ++ [31] ++ lit "eDE-101" ++ [30])
  ++ (lit "047A/03 " ++ [31] ++ lit "rDE-101" ++ [30])
  ++ (lit "047C " ++ [31] ++ lit "Sswd" ++ [31] ++ lit "is" ++ [31] ++ lit "aKlassik" ++ [31] ++ lit "04030960-5" ++ [30])
  ++ (lit "050E " ++ [31] ++ lit "aM" ++ [30])
  ++ (lit "070A/02 " ++ [31] ++ lit "SMACS" ++ [31] ++ lit "00130281" ++ [30])
  ++ (lit "070A/02 " ++ [31] ++ lit "SMACS" ++ [31] ++ lit "00130282" ++ [30])
  ++ [10].

(** /repo/tests/data/DUMP.dat.gz, decompressed, line 11 *)
Definition dump_11 : bytes :=
  (lit "001A " ++ [31] ++ lit "01250:01-07-88" ++ [30])
  ++ (lit "001B " ++ [31] ++ lit "09999:15-04-22" ++ [31] ++ lit "t15:15:00.000" ++ [30])
  ++ (lit "001D " ++ [31] ++ lit "09999:06-09-19" ++ [30])
  ++ (lit "001U " ++ [31] ++ lit "0utf8" ++ [30])
  ++ (lit "001X " ++ [31] ++ lit "00" ++ [30])
  ++ (lit "002@ " ++ [31] ++ lit "0Tsz" ++ [30])
  ++ (lit "003@ " ++ [31] ++ lit "0040128997" ++ [30])
  ++ (lit "003U " ++ [31] ++ lit "ahttp://d-nb.info/gnd/4012899-4" ++ [30])
  ++ (lit "004B " ++ [31] ++ lit "asaz" ++ [30])
  ++ (lit "007K " ++ [31] ++ lit "agnd" ++ [31] ++ lit "04012899-4" ++ [30])
  ++ (lit "007N " ++ [31] ++ lit "aswd" ++ [31] ++ lit "04012899-4" ++ [31] ++ lit "vzg" ++ [30])
  ++ (lit "008A " ++ [31] ++ lit "as" ++ [30])
  ++ (lit "008B " ++ [31] ++ lit "aw" ++ [31] ++ lit "az" ++ [31] ++ lit "ao" ++ [30])
  ++ (lit "037G " ++ [31] ++ lit "cT3A--2" ++ [31] ++ lit "d2" ++ [31] ++ lit "t2007-01-01" ++ [30])
  ++ (lit "037G " ++ [31] ++ lit "cT3B--2" ++ [31] ++ lit "d2" ++ [31] ++ lit "t2007-01-01" ++ [30])
  ++ (lit "037G " ++ [31] ++ lit "c808.2" ++ [31] ++ lit "d3" ++ [31] ++ lit "t2007-01-01" ++ [30])
  ++ (lit "037G " ++ [31] ++ lit "c808.82" ++ [31] ++ lit "d2" ++ [31] ++ lit "t2007-01-01" ++ [30])
  ++ (lit "037G " ++ [31] ++ lit "c809.2" ++ [31] ++ lit "d3" ++ [31] ++ lit "t2007-01-01" ++ [30])
  ++ (lit "041@ " ++ [31] ++ lit "aDramatik" ++ [30])
  ++ (lit "041@ " ++ [31] ++ lit "aSchauspiel" ++ [30])
  ++ (lit "041@ " ++ [31] ++ lit "aTheaterstück" ++ [31] ++ lit "gSachschlagwort" ++ [30])
  ++ (lit "041@ " ++ [31] ++ lit "aDramen" ++ [30])
  ++ (lit "041@ " ++ [31] ++ lit "aDramatisches Werk" ++ [30])
  ++ (lit "041A " ++ [31] ++ lit "aDrama" ++ [30])
  ++ (lit "041P " ++ [31] ++ lit "Leng" ++ [31] ++ lit "91133604897" ++ [31] ++ lit "aDrama" ++ [31] ++ lit "uhttps://id.loc.gov/authorities/subjects/sh85039316" ++ [31] ++ lit "SDLC" ++ [31] ++ lit "0sh85039316" ++ [31] ++ lit "2lcsh" ++ [31] ++ lit "4ftaa" ++ [30])
  ++ (lit "041P " ++ [31] ++ lit "Leng" ++ [31] ++ lit "91134624751" ++ [31] ++ lit "aDrama" ++ [31] ++ lit "xHistory and criticism" ++ [31] ++ lit "uhttps://id.loc.gov/authorities/subjects/sh85039329" ++ [31] ++ lit "SDLC" ++ [31] ++ lit "0sh85039329" ++ [31] ++ lit "2lcsh" ++ [31] ++ lit "4ftaa" ++ [30])
  ++ (lit "041P " ++ [31] ++ lit "Lfre" ++ [31] ++ lit "91133604897" ++ [31] ++ lit "aThéâtre (genre littéraire)" ++ [31] ++ lit "uhttps://data.bnf.fr/ark:/12148/cb11939701x" ++ [31] ++ lit "SFrPBN" ++ [31] ++ lit "0FRBNF119397015" ++ [31] ++ lit "2ram" ++ [31] ++ lit "4ftaa" ++ [30])
  ++ (lit "041P " ++ [31] ++ lit "Lspa" ++ [31] ++ lit "91254421416" ++ [31] ++ lit "aTeatro (Género literario)" ++ [31] ++ lit "uhttps://datos.bne.es/resource/XX539770" ++ [31] ++ lit "SSpMaBN" ++ [31] ++ lit "0XX539770" ++ [31] ++ lit "2embne" ++ [31] ++ lit "4ftaa" ++ [30])
  ++ (lit "041P " ++ [31] ++ lit "Leng" ++ [31] ++ lit "91253495912" ++ [31] ++ lit "aDrama" ++ [31] ++ lit "uhttps://id.nlm.nih.gov/mesh/D004324" ++ [31] ++ lit "SDNLM" ++ [31] ++ lit "0D004324" ++ [31] ++ lit "2mesh" ++ [31] ++ lit "4ftae" ++ [31] ++ lit "vAusg. 2020|2021" ++ [30])
  ++ (lit "041P " ++ [31] ++ lit "9970544316" ++ [31] ++ lit "aDrama" ++ [31] ++ lit "uhttp://lod.gesis.org/thesoz/concept_10057162" ++ [31] ++ lit "SGESIS" ++ [31] ++ lit "010057162" ++ [31] ++ lit "2thesoz" ++ [31] ++ lit "4ftae" ++ [30])
  ++ (lit "041R " ++ [31] ++ lit "9040359646" ++ [31] ++ lit "7Tsz" ++ [31] ++ lit "Vsaz" ++ [31] ++ lit "Agnd" ++ [31] ++ lit "04035964-5" ++ [31] ++ lit "aLiteratur" ++ [31] ++ lit "4obge" ++ [30])
  ++ (lit "041R " ++ [31] ++ lit "9041388615" ++ [31] ++ lit "7Ts1" ++ [31] ++ lit "Vszz" ++ [31] ++ lit "Agnd" ++ [31] ++ lit "04138861-6" ++ [31] ++ lit "aDas @Dramatische" ++ [31] ++ lit "4vbal" ++ [30])
  ++ (lit "041R " ++ [31] ++ lit "9041825527" ++ [31] ++ lit "7Ts1" ++ [31] ++ lit "Vsaz" ++ [31] ++ lit "Agnd" ++ [31] ++ lit "04182552-4" ++ [31] ++ lit "aSprechtheater" ++ [31] ++ lit "4vbal" ++ [30])
  ++ (lit "042A " ++ [31] ++ lit "a12.3" ++ [30])
  ++ (lit "047A/03 " ++ [31] ++ lit "eDE-101" ++ [30])
  ++ (lit "047A/03 " ++ [31] ++ lit "rDE-101" ++ [30])
  ++ (lit "047C " ++ [31] ++ lit "Sswd" ++ [31] ++ lit "is" ++ [31] ++ lit "aDrama" ++ [31] ++ lit "04012899-4" ++ [30])
  ++ (lit "050C " ++ [31] ++ lit "aBearbeitungssperre (Top500) - Änderungswünsche an DNB" ++ [30])
  ++ (lit "050C " ++ [31] ++ lit "aBis März 2010: in Verknüpfung mit Personenschlagwörtern und Sprachbezeichnungen bzw. Geographika nicht permutierendes Schlagwort." ++ [30])
  ++ (lit "050E " ++ [31] ++ lit "aM" ++ [30])
  ++ [10].

(** /repo/tests/data/DUMP.dat.gz, decompressed, line 12 *)
Definition dump_12 : bytes :=
  (lit "003! " ++ [31] ++ lit "0123456789X" ++ [30])
  ++ (lit "002@ " ++ [31] ++ lit "0Tp1" ++ [30])
  ++ (lit "012A/00 " ++ [31] ++ lit "a1" ++ [31] ++ lit "a2" ++ [31] ++ lit "b1" ++ [30])
  ++ [10].

(** /repo/tests/data/DUMP.dat.gz, decompressed, line 13 *)
Definition dump_13 : bytes :=
  (lit "001A " ++ [31] ++ lit "01250:01-07-88" ++ [30])
  ++ (lit "001B " ++ [31] ++ lit "09999:17-12-21" ++ [31] ++ lit "t17:24:14.000" ++ [30])
  ++ (lit "001D " ++ [31] ++ lit "09999:17-01-09" ++ [30])
  ++ (lit "001U " ++ [31] ++ lit "0utf8" ++ [30])
  ++ (lit "001X " ++ [31] ++ lit "00" ++ [30])
  ++ (lit "002@ " ++ [31] ++ lit "0Tg1" ++ [30])
  ++ (lit "003@ " ++ [31] ++ lit "0040651053" ++ [30])
  ++ (lit "003U " ++ [31] ++ lit "ahttp://d-nb.info/gnd/4065105-8" ++ [31] ++ lit "zhttp://d-nb.info/gnd/2027981-4" ++ [30])
  ++ (lit "004B " ++ [31] ++ lit "agik" ++ [30])
  ++ (lit "006Y " ++ [31] ++ lit "Sgeonames" ++ [31] ++ lit "02812482" ++ [30])
  ++ (lit "007K " ++ [31] ++ lit "agnd" ++ [31] ++ lit "04065105-8" ++ [30])
  ++ (lit "007N " ++ [31] ++ lit "agnd" ++ [31] ++ lit "02027981-4" ++ [30])
  ++ (lit "007N " ++ [31] ++ lit "agkd" ++ [31] ++ lit "02027981-4" ++ [31] ++ lit "vzg" ++ [30])
  ++ (lit "007N " ++ [31] ++ lit "aswd" ++ [31] ++ lit "04065105-8" ++ [31] ++ lit "vzg" ++ [30])
  ++ (lit "008A " ++ [31] ++ lit "af" ++ [31] ++ lit "ag" ++ [31] ++ lit "ah" ++ [31] ++ lit "as" ++ [31] ++ lit "az" ++ [30])
  ++ (lit "008B " ++ [31] ++ lit "aw" ++ [31] ++ lit "az" ++ [31] ++ lit "av" ++ [31] ++ lit "ao" ++ [30])
  ++ (lit "029@ " ++ [31] ++ lit "aWeimar" ++ [31] ++ lit "bGebietsvertretung" ++ [31] ++ lit "4spio" ++ [30])
  ++ (lit "029@ " ++ [31] ++ lit "aGebietsvertretung" ++ [31] ++ lit "gWeimar" ++ [31] ++ lit "4spio" ++ [30])
  ++ (lit "029@ " ++ [31] ++ lit "aGemeinde-Vorstand" ++ [31] ++ lit "gWeimar" ++ [31] ++ lit "4spio" ++ [30])
  ++ (lit "029@ " ++ [31] ++ lit "aGemeindevorstand" ++ [31] ++ lit "gWeimar" ++ [31] ++ lit "4spio" ++ [30])
  ++ (lit "037G " ++ [31] ++ lit "cT2--432241" ++ [31] ++ lit "d4" ++ [31] ++ lit "t2007-01-01" ++ [30])
  ++ (lit "037H " ++ [31] ++ lit "Aagx" ++ [31] ++ lit "dE 011 19 44" ++ [31] ++ lit "eE 011 19 44" ++ [31] ++ lit "fN 050 58 49" ++ [31] ++ lit "gN 050 58 49" ++ [31] ++ lit "uhttps://sws.geonames.org/2812482" ++ [31] ++ lit "2geonames" ++ [30])
  ++ (lit "037H " ++ [31] ++ lit "Adgx" ++ [31] ++ lit "dE011.329029" ++ [31] ++ lit "eE011.329029" ++ [31] ++ lit "fN050.980299" ++ [31] ++ lit "gN050.980299" ++ [31] ++ lit "uhttps://sws.geonames.org/2812482" ++ [31] ++ lit "2geonames" ++ [30])
  ++ (lit "042B " ++ [31] ++ lit "aXA-DE-TH" ++ [30])
  ++ (lit "047A/03 " ++ [31] ++ lit "eDE-101" ++ [30])
  ++ (lit "047A/03 " ++ [31] ++ lit "rDE-101" ++ [30])
  ++ (lit "047C " ++ [31] ++ lit "Sswd" ++ [31] ++ lit "ig" ++ [31] ++ lit "aWeimar" ++ [31] ++ lit "04065105-8" ++ [30])
  ++ (lit "047C " ++ [31] ++ lit "Sgkd" ++ [31] ++ lit "ia" ++ [31] ++ lit "aWeimar" ++ [31] ++ lit "02027981-4" ++ [30])
  ++ (lit "050C " ++ [31] ++ lit "aMMi" ++ [30])
  ++ (lit "050C " ++ [31] ++ lit "aBuchbesitz: HAAB Weimar" ++ [30])
  ++ (lit "050E " ++ [31] ++ lit "aProvenienzmerkmal" ++ [30])
  ++ (lit "050E " ++ [31] ++ lit "aOrts-Mü. 34 (online)" ++ [30])
  ++ (lit "050E " ++ [31] ++ lit "aWikipedia" ++ [30])
  ++ (lit "050E " ++ [31] ++ lit "aGKD" ++ [30])
  ++ (lit "050G " ++ [31] ++ lit "bKreisfreie Stadt an der Ilm, 899 urkundl. erwähnt (Burg), um 1250 Stadt (1254 Civitas) gegründet, 1410 Stadtrecht" ++ [30])
  ++ (lit "065@ " ++ [31] ++ lit "aWeimar" ++ [31] ++ lit "gThüringen" ++ [31] ++ lit "vOrts-Mü. 30" ++ [30])
  ++ (lit "065@ " ++ [31] ++ lit "aVejmar" ++ [30])
  ++ (lit "065@ " ++ [31] ++ lit "aKreis Weimar-Stadt" ++ [30])
  ++ (lit "065@ " ++ [31] ++ lit "aVinaria" ++ [30])
  ++ (lit "065@ " ++ [31] ++ lit "aVimaria" ++ [30])
  ++ (lit "065@ " ++ [31] ++ lit "aWimares" ++ [30])
  ++ (lit "065@ " ++ [31] ++ lit "aStadt Weimar" ++ [30])
  ++ (lit "065A " ++ [31] ++ lit "aWeimar" ++ [30])
  ++ (lit "070A " ++ [31] ++ lit "aWeimar" ++ [31] ++ lit "5DE-101e" ++ [30])
  ++ (lit "070A/03 " ++ [31] ++ lit "SIDS" ++ [31] ++ lit "0510346649" ++ [30])
  ++ (lit "070A/03 " ++ [31] ++ lit "SIDS" ++ [31] ++ lit "0510392881" ++ [30])
  ++ (lit "070A/03 " ++ [31] ++ lit "SIDS" ++ [31] ++ lit "0520219246" ++ [30])
  ++ [10].

(** /repo/tests/data/DUMP.dat.gz, decompressed *)
Definition dump : bytes := dump_1 ++ dump_2 ++ dump_3 ++ dump_4 ++ dump_5 ++ dump_6 ++ dump_7 ++ dump_8 ++ dump_9 ++ dump_10 ++ dump_11 ++ dump_12 ++ dump_13.

(** /repo/tests/data/samples.dat.gz, decompressed, line 1 *)
Definition samples_gz_1 : bytes :=
  (lit "001A " ++ [31] ++ lit "01250:01-07-88" ++ [30])
  ++ (lit "001B " ++ [31] ++ lit "09999:15-04-22" ++ [31] ++ lit "t15:15:00.000" ++ [30])
  ++ (lit "001D " ++ [31] ++ lit "09999:06-09-19" ++ [30])
  ++ (lit "001U " ++ [31] ++ lit "0utf8" ++ [30])
  ++ (lit "001X " ++ [31] ++ lit "00" ++ [30])
  ++ (lit "002@ " ++ [31] ++ lit "0Tsz" ++ [30])
  ++ (lit "003@ " ++ [31] ++ lit "0040128997" ++ [30])
  ++ (lit "003U " ++ [31] ++ lit "ahttp://d-nb.info/gnd/4012899-4" ++ [30])
  ++ (lit "004B " ++ [31] ++ lit "asaz" ++ [30])
  ++ (lit "007K " ++ [31] ++ lit "agnd" ++ [31] ++ lit "04012899-4" ++ [30])
  ++ (lit "007N " ++ [31] ++ lit "aswd" ++ [31] ++ lit "04012899-4" ++ [31] ++ lit "vzg" ++ [30])
  ++ (lit "008A " ++ [31] ++ lit "as" ++ [30])
  ++ (lit "008B " ++ [31] ++ lit "aw" ++ [31] ++ lit "az" ++ [31] ++ lit "ao" ++ [30])
  ++ (lit "037G " ++ [31] ++ lit "cT3A--2" ++ [31] ++ lit "d2" ++ [31] ++ lit "t2007-01-01" ++ [30])
  ++ (lit "037G " ++ [31] ++ lit "cT3B--2" ++ [31] ++ lit "d2" ++ [31] ++ lit "t2007-01-01" ++ [30])
  ++ (lit "037G " ++ [31] ++ lit "c808.2" ++ [31] ++ lit "d3" ++ [31] ++ lit "t2007-01-01" ++ [30])
  ++ (lit "037G " ++ [31] ++ lit "c808.82" ++ [31] ++ lit "d2" ++ [31] ++ lit "t2007-01-01" ++ [30])
  ++ (lit "037G " ++ [31] ++ lit "c809.2" ++ [31] ++ lit "d3" ++ [31] ++ lit "t2007-01-01" ++ [30])
  ++ (lit "041@ " ++ [31] ++ lit "aDramatik" ++ [30])
  ++ (lit "041@ " ++ [31] ++ lit "aSchauspiel" ++ [30])
  ++ (lit "041@ " ++ [31] ++ lit "aTheaterstück" ++ [31] ++ lit "gSachschlagwort" ++ [30])
  ++ (lit "041@ " ++ [31] ++ lit "aDramen" ++ [30])
  ++ (lit "041@ " ++ [31] ++ lit "aDramatisches Werk" ++ [30])
  ++ (lit "041A " ++ [31] ++ lit "aDrama" ++ [30])
  ++ (lit "041P " ++ [31] ++ lit "Leng" ++ [31] ++ lit "91133604897" ++ [31] ++ lit "aDrama" ++ [31] ++ lit "uhttps://id.loc.gov/authorities/subjects/sh85039316" ++ [31] ++ lit "SDLC" ++ [31] ++ lit "0sh85039316" ++ [31] ++ lit "2lcsh" ++ [31] ++ lit "4ftaa" ++ [30])
  ++ (lit "041P " ++ [31] ++ lit "Leng" ++ [31] ++ lit "91134624751" ++ [31] ++ lit "aDrama" ++ [31] ++ lit "xHistory and criticism" ++ [31] ++ lit "uhttps://id.loc.gov/authorities/subjects/sh85039329" ++ [31] ++ lit "SDLC" ++ [31] ++ lit "0sh85039329" ++ [31] ++ lit "2lcsh" ++ [31] ++ lit "4ftaa" ++ [30])
  ++ (lit "041P " ++ [31] ++ lit "Lfre" ++ [31] ++ lit "91133604897" ++ [31] ++ lit "aThéâtre (genre littéraire)" ++ [31] ++ lit "uhttps://data.bnf.fr/ark:/12148/cb11939701x" ++ [31] ++ lit "SFrPBN" ++ [31] ++ lit "0FRBNF119397015" ++ [31] ++ lit "2ram" ++ [31] ++ lit "4ftaa" ++ [30])
  ++ (lit "041P " ++ [31] ++ lit "Lspa" ++ [31] ++ lit "91254421416" ++ [31] ++ lit "aTeatro (Género literario)" ++ [31] ++ lit "uhttps://datos.bne.es/resource/XX539770" ++ [31] ++ lit "SSpMaBN" ++ [31] ++ lit "0XX539770" ++ [31] ++ lit "2embne" ++ [31] ++ lit "4ftaa" ++ [30])
  ++ (lit "041P " ++ [31] ++ lit "Leng" ++ [31] ++ lit "91253495912" ++ [31] ++ lit "aDrama" ++ [31] ++ lit "uhttps://id.nlm.nih.gov/mesh/D004324" ++ [31] ++ lit "SDNLM" ++ [31] ++ lit "0D004324" ++ [31] ++ lit "2mesh" ++ [31] ++ lit "4ftae" ++ [31] ++ lit "vAusg. 2020|2021" ++ [30])
  ++ (lit "041P " ++ [31] ++ lit "9970544316" ++ [31] ++ lit "aDrama" ++ [31] ++ lit "uhttp://lod.gesis.org/thesoz/concept_10057162" ++ [31] ++ lit "SGESIS" ++ [31] ++ lit "010057162" ++ [31] ++ lit "2thesoz" ++ [31] ++ lit "4ftae" ++ [30])
  ++ (lit "041R " ++ [31] ++ lit "9040359646" ++ [31] ++ lit "7Tsz" ++ [31] ++ lit "Vsaz" ++ [31] ++ lit "Agnd" ++ [31] ++ lit "04035964-5" ++ [31] ++ lit "aLiteratur" ++ [31] ++ lit "4obge" ++ [30])
  ++ (lit "041R " ++ [31] ++ lit "9041388615" ++ [31] ++ lit "7Ts1" ++ [31] ++ lit "Vszz" ++ [31] ++ lit "Agnd" ++ [31] ++ lit "04138861-6" ++ [31] ++ lit "aDas @Dramatische" ++ [31] ++ lit "4vbal" ++ [30])
  ++ (lit "041R " ++ [31] ++ lit "9041825527" ++ [31] ++ lit "7Ts1" ++ [31] ++ lit "Vsaz" ++ [31] ++ lit "Agnd" ++ [31] ++ lit "04182552-4" ++ [31] ++ lit "aSprechtheater" ++ [31] ++ lit "4vbal" ++ [30])
  ++ (lit "042A " ++ [31] ++ lit "a12.3" ++ [30])
  ++ (lit "047A/03 " ++ [31] ++ lit "eDE-101" ++ [30])
  ++ (lit "047A/03 " ++ [31] ++ lit "rDE-101" ++ [30])
  ++ (lit "047C " ++ [31] ++ lit "Sswd" ++ [31] ++ lit "is" ++ [31] ++ lit "aDrama" ++ [31] ++ lit "04012899-4" ++ [30])
  ++ (lit "050C " ++ [31] ++ lit "aBearbeitungssperre (Top500) - Änderungswünsche an DNB" ++ [30])
  ++ (lit "050C " ++ [31] ++ lit "aBis März 2010: in Verknüpfung mit Personenschlagwörtern und Sprachbezeichnungen bzw. Geographika nicht permutierendes Schlagwort." ++ [30])
  ++ (lit "050E " ++ [31] ++ lit "aM" ++ [30])
  ++ [10].

(** /repo/tests/data/samples.dat.gz, decompressed, line 2 *)
Definition samples_gz_2 : bytes :=
  (lit "001A " ++ [31] ++ lit "01250:01-07-88" ++ [30])
  ++ (lit "001B " ++ [31] ++ lit "02110:11-07-22" ++ [31] ++ lit "t15:26:15.000" ++ [30])
  ++ (lit "001D " ++ [31] ++ lit "01220:16-06-08" ++ [30])
  ++ (lit "001U " ++ [31] ++ lit "0utf8" ++ [30])
  ++ (lit "001X " ++ [31] ++ lit "00" ++ [30])
  ++ (lit "002@ " ++ [31] ++ lit "0Tp1" ++ [30])
  ++ (lit "003@ " ++ [31] ++ lit "0118607626" ++ [30])
  ++ (lit "003U " ++ [31] ++ lit "ahttp://d-nb.info/gnd/118607626" ++ [31] ++ lit "zhttp://d-nb.info/gnd/17404092X" ++ [31] ++ lit "zhttp://d-nb.info/gnd/174166745" ++ [31] ++ lit "zhttp://d-nb.info/gnd/189458372" ++ [31] ++ lit "zhttp://d-nb.info/gnd/159164559" ++ [31] ++ lit "zhttp://d-nb.info/gnd/1025671430" ++ [30])
  ++ (lit "004B " ++ [31] ++ lit "apiz" ++ [30])
  ++ (lit "007K " ++ [31] ++ lit "agnd" ++ [31] ++ lit "0118607626" ++ [30])
  ++ (lit "007N " ++ [31] ++ lit "agnd" ++ [31] ++ lit "01025671430" ++ [30])
  ++ (lit "007N " ++ [31] ++ lit "agnd" ++ [31] ++ lit "0159164559" ++ [30])
  ++ (lit "007N " ++ [31] ++ lit "apnd" ++ [31] ++ lit "0159164559" ++ [31] ++ lit "vzg" ++ [30])
  ++ (lit "007N " ++ [31] ++ lit "agnd" ++ [31] ++ lit "0189458372" ++ [30])
  ++ (lit "007N " ++ [31] ++ lit "apnd" ++ [31] ++ lit "0189458372" ++ [31] ++ lit "vzg" ++ [30])
  ++ (lit "007N " ++ [31] ++ lit "aswd" ++ [31] ++ lit "07802698-2" ++ [31] ++ lit "vzg" ++ [30])
  ++ (lit "007N " ++ [31] ++ lit "agnd" ++ [31] ++ lit "0174166745" ++ [30])
  ++ (lit "007N " ++ [31] ++ lit "apnd" ++ [31] ++ lit "0174166745" ++ [31] ++ lit "vzg" ++ [30])
  ++ (lit "007N " ++ [31] ++ lit "agnd" ++ [31] ++ lit "017404092X" ++ [30])
  ++ (lit "007N " ++ [31] ++ lit "apnd" ++ [31] ++ lit "017404092X" ++ [31] ++ lit "vzg" ++ [30])
  ++ (lit "007N " ++ [31] ++ lit "apnd" ++ [31] ++ lit "0118607626" ++ [31] ++ lit "vzg" ++ [30])
  ++ (lit "007N " ++ [31] ++ lit "apnd" ++ [31] ++ lit "0131144839" ++ [30])
  ++ (lit "007N " ++ [31] ++ lit "apnd" ++ [31] ++ lit "0131144820" ++ [30])
  ++ (lit "008A " ++ [31] ++ lit "aa" ++ [31] ++ lit "ad" ++ [31] ++ lit "af" ++ [31] ++ lit "ah" ++ [31] ++ lit "al" ++ [31] ++ lit "as" ++ [31] ++ lit "az" ++ [30])
  ++ (lit "008B " ++ [31] ++ lit "av" ++ [31] ++ lit "aw" ++ [31] ++ lit "ak" ++ [31] ++ lit "am" ++ [31] ++ lit "ao" ++ [31] ++ lit "ae" ++ [31] ++ lit "az" ++ [30])
  ++ (lit "010E " ++ [31] ++ lit "erda" ++ [30])
  ++ (lit "022R " ++ [31] ++ lit "91255052090" ++ [31] ++ lit "7Tu3" ++ [31] ++ lit "Vwin" ++ [31] ++ lit "Agnd" ++ [31] ++ lit "01255052090" ++ [31] ++ lit "tNachlass Friedrich Schiller" ++ [31] ++ lit "4rela" ++ [30])
  ++ (lit "028@ " ++ [31] ++ lit "dFriedrich" ++ [31] ++ lit "cvon" ++ [31] ++ lit "aSchiller" ++ [31] ++ lit "4nasp" ++ [31] ++ lit "vab 1802" ++ [30])
  ++ (lit "028@ " ++ [31] ++ lit "dFriederich" ++ [31] ++ lit "aSchiller" ++ [30])
  ++ (lit "028@ " ++ [31] ++ lit "dFriederich" ++ [31] ++ lit "cvon" ++ [31] ++ lit "aSchiller" ++ [30])
  ++ (lit "028@ " ++ [31] ++ lit "dC. Friedrich" ++ [31] ++ lit "cvon" ++ [31] ++ lit "aSchiller" ++ [30])
  ++ (lit "028@ " ++ [31] ++ lit "dFederico" ++ [31] ++ lit "cde" ++ [31] ++ lit "aSchiller" ++ [30])
  ++ (lit "028@ " ++ [31] ++ lit "dFridrich" ++ [31] ++ lit "cvon" ++ [31] ++ lit "aSchiller" ++ [30])
  ++ (lit "028@ " ++ [31] ++ lit "dFridrich" ++ [31] ++ lit "aSchiller" ++ [30])
  ++ (lit "028@ " ++ [31] ++ lit "dFriderich" ++ [31] ++ lit "aSchiller" ++ [30])
  ++ (lit "028@ " ++ [31] ++ lit "dFriedrich Johann Christoph" ++ [31] ++ lit "cvon" ++ [31] ++ lit "aSchiller" ++ [30])
  ++ (lit "028@ " ++ [31] ++ lit "dFriedrich" ++ [31] ++ lit "cv." ++ [31] ++ lit "aSchiller" ++ [30])
  ++ (lit "028@ " ++ [31] ++ lit "dFriedr." ++ [31] ++ lit "cvon" ++ [31] ++ lit "aSchiller" ++ [30])
  ++ (lit "028@ " ++ [31] ++ lit "dFr." ++ [31] ++ lit "aSchiller" ++ [30])
  ++ (lit "028@ " ++ [31] ++ lit "dFedericus" ++ [31] ++ lit "aSchiller" ++ [30])
  ++ (lit "028@ " ++ [31] ++ lit "dJohann Christoph Friedrich" ++ [31] ++ lit "cvon" ++ [31] ++ lit "aSchiller" ++ [31] ++ lit "vB 1996" ++ [30])
  ++ (lit "028@ " ++ [31] ++ lit "dJohann Christoph Friderich" ++ [31] ++ lit "aSchiller" ++ [30])
  ++ (lit "028@ " ++ [31] ++ lit "dJohann Christoph Friedrich" ++ [31] ++ lit "aSchiller" ++ [30])
  ++ (lit "028@ " ++ [31] ++ lit "dJoh. Christoph Frid." ++ [31] ++ lit "aSchiller" ++ [30])
  ++ (lit "028@ " ++ [31] ++ lit "dJohann C." ++ [31] ++ lit "cvon" ++ [31] ++ lit "aSchiller" ++ [30])
  ++ (lit "028@ " ++ [31] ++ lit "dJohann C." ++ [31] ++ lit "aSchiller" ++ [30])
  ++ (lit "028@ " ++ [31] ++ lit "dJohann Friedrich Christoph" ++ [31] ++ lit "cvon" ++ [31] ++ lit "aSchiller" ++ [30])
  ++ (lit "028@ " ++ [31] ++ lit "dGiovanni Cristoforo Federico" ++ [31] ++ lit "aSchiller" ++ [30])
  ++ (lit "028@ " ++ [31] ++ lit "dJohann F." ++ [31] ++ lit "cvon" ++ [31] ++ lit "aSchiller" ++ [30])
  ++ (lit "028@ " ++ [31] ++ lit "dJ. C. Friedrich" ++ [31] ++ lit "cvon" ++ [31] ++ lit "aSchiller" ++ [30])
  ++ (lit "028@ " ++ [31] ++ lit "dJ. C. F." ++ [31] ++ lit "aSchiller" ++ [30])
  ++ (lit "028@ " ++ [31] ++ lit "dJohann Frederich" ++ [31] ++ lit "aSchiller" ++ [30])
  ++ (lit "028@ " ++ [31] ++ lit "dBedřich" ++ [31] ++ lit "aSchiller" ++ [30])
  ++ (lit "028@ " ++ [31] ++ lit "dC. F." ++ [31] ++ lit "aSchiller" ++ [30])
  ++ (lit "028@ " ++ [31] ++ lit "dFederico" ++ [31] ++ lit "aSchiller" ++ [30])
  ++ (lit "028@ " ++ [31] ++ lit "dFrederic" ++ [31] ++ lit "aSchiller" ++ [30])
  ++ (lit "028@ " ++ [31] ++ lit "dFrédéric" ++ [31] ++ lit "aSchiller" ++ [30])
  ++ (lit "028@ " ++ [31] ++ lit "dFrédéric" ++ [31] ++ lit "cde" ++ [31] ++ lit "aSchiller" ++ [30])
  ++ (lit "028@ " ++ [31] ++ lit "dFrédéric" ++ [31] ++ lit "cvon" ++ [31] ++ lit "aSchiller" ++ [30])
  ++ (lit "028@ " ++ [31] ++ lit "dFrederik" ++ [31] ++ lit "aSchiller" ++ [30])
  ++ (lit "028@ " ++ [31] ++ lit "dFrederick" ++ [31] ++ lit "aSchiller" ++ [30])
  ++ (lit "028@ " ++ [31] ++ lit "dFrederico" ++ [31] ++ lit "aSchiller" ++ [30])
  ++ (lit "028@ " ++ [31] ++ lit "dFriderico" ++ [31] ++ lit "aSchiller" ++ [30])
  ++ (lit "028@ " ++ [31] ++ lit "dFridericus" ++ [31] ++ lit "aSchiller" ++ [30])
  ++ (lit "028@ " ++ [31] ++ lit "dFridericus" ++ [31] ++ lit "cde" ++ [31] ++ lit "aSchiller" ++ [30])
  ++ (lit "028@ " ++ [31] ++ lit "dFrideriko" ++ [31] ++ lit "aSchiller" ++ [30])
  ++ (lit "028@ " ++ [31] ++ lit "dFridrik" ++ [31] ++ lit "aSchiller" ++ [30])
  ++ (lit "028@ " ++ [31] ++ lit "dFridrick" ++ [31] ++ lit "aSchiller" ++ [30])
  ++ (lit "028@ " ++ [31] ++ lit "dFryderyk" ++ [31] ++ lit "aSchiller" ++ [30])
  ++ (lit "028@ " ++ [31] ++ lit "dFrigyes" ++ [31] ++ lit "aSchiller" ++ [30])
  ++ (lit "028@ " ++ [31] ++ lit "dFr." ++ [31] ++ lit "cv." ++ [31] ++ lit "aSchiller" ++ [30])
  ++ (lit "028@ " ++ [31] ++ lit "dFr." ++ [31] ++ lit "cvon" ++ [31] ++ lit "aSchiller" ++ [30])
  ++ (lit "028@ " ++ [31] ++ lit "dF." ++ [31] ++ lit "cvon" ++ [31] ++ lit "aSchiller" ++ [30])
  ++ (lit "028@ " ++ [31] ++ lit "dF." ++ [31] ++ lit "aSchiller" ++ [30])
  ++ (lit "028@ " ++ [31] ++ lit "dBjedrich" ++ [31] ++ lit "aSchiller" ++ [30])
  ++ (lit "028@ " ++ [31] ++ lit "dFridericus" ++ [31] ++ lit "aSchillerus" ++ [30])
  ++ (lit "028@ " ++ [31] ++ lit "dFridericus" ++ [31] ++ lit "cde" ++ [31] ++ lit "aSchillerus" ++ [30])
  ++ (lit "028@ " ++ [31] ++ lit "PSchiller" ++ [30])
  ++ (lit "028@ " ++ [31] ++ lit "PSchüller" ++ [30])
  ++ (lit "028@ " ++ [31] ++ lit "PHsilô" ++ [30])
  ++ (lit "028@ " ++ [31] ++ lit "dFridrih" ++ [31] ++ lit "aShiler" ++ [30])
  ++ (lit "028@ " ++ [31] ++ lit "PShirâ" ++ [30])
  ++ (lit "028@ " ++ [31] ++ lit "PShirureru" ++ [30])
  ++ (lit "028@ " ++ [31] ++ lit "dFridrich" ++ [31] ++ lit "aŠiler" ++ [30])
  ++ (lit "028@ " ++ [31] ++ lit "dFridrih" ++ [31] ++ lit "aŠiler" ++ [30])
  ++ (lit "028@ " ++ [31] ++ lit "dFridrik" ++ [31] ++ lit "aŠiler" ++ [30])
  ++ (lit "028@ " ++ [31] ++ lit "dJohan Hristof Fridrih" ++ [31] ++ lit "cfon" ++ [31] ++ lit "aŠiler" ++ [30])
  ++ (lit "028@ " ++ [31] ++ lit "PŠiler" ++ [30])
  ++ (lit "028@ " ++ [31] ++ lit "dPhridrih" ++ [31] ++ lit "aŠileri" ++ [30])
  ++ (lit "028@ " ++ [31] ++ lit "dFridrichas" ++ [31] ++ lit "aŠileris" ++ [30])
  ++ (lit "028@ " ++ [31] ++ lit "dFrydrichas" ++ [31] ++ lit "aŠileris" ++ [30])
  ++ (lit "028@ " ++ [31] ++ lit "dFrydrychas" ++ [31] ++ lit "aŠileris" ++ [30])
  ++ (lit "028@ " ++ [31] ++ lit "dFrīdrīš" ++ [31] ++ lit "aŠīlir" ++ [30])
  ++ (lit "028@ " ++ [31] ++ lit "dFrīdrīš" ++ [31] ++ lit "cfūn" ++ [31] ++ lit "aŠīlir" ++ [30])
  ++ (lit "028@ " ++ [31] ++ lit "dFridrīk" ++ [31] ++ lit "aŠīlir" ++ [30])
  ++ (lit "028@ " ++ [31] ++ lit "dFrederik" ++ [31] ++ lit "cfon" ++ [31] ++ lit "aŞiller" ++ [30])
  ++ (lit "028@ " ++ [31] ++ lit "dFridricku" ++ [31] ++ lit "aSiller" ++ [30])
  ++ (lit "028@ " ++ [31] ++ lit "dFridrich" ++ [31] ++ lit "aŠiller" ++ [30])
  ++ (lit "028@ " ++ [31] ++ lit "dFridrih" ++ [31] ++ lit "aŠiller" ++ [30])
  ++ (lit "028@ " ++ [31] ++ lit "dBedřich" ++ [31] ++ lit "aŠiller" ++ [31] ++ lit "vtschechische Namensform" ++ [30])
  ++ (lit "028@ " ++ [31] ++ lit "dFridrix" ++ [31] ++ lit "aŠiller" ++ [30])
  ++ (lit "028@ " ++ [31] ++ lit "dFiredirix" ++ [31] ++ lit "aŠiller" ++ [31] ++ lit "vuigurisch" ++ [30])
  ++ (lit "028@ " ++ [31] ++ lit "dFr." ++ [31] ++ lit "aŠiller" ++ [30])
  ++ (lit "028@ " ++ [31] ++ lit "dF." ++ [31] ++ lit "aŠiller" ++ [30])
  ++ (lit "028@ " ++ [31] ++ lit "dIogann Christof Fridrich" ++ [31] ++ lit "aŠiller" ++ [30])
  ++ (lit "028@ " ++ [31] ++ lit "dPhrēntrich" ++ [31] ++ lit "aSiller" ++ [30])
  ++ (lit "028@ " ++ [31] ++ lit "dPhriderikos" ++ [31] ++ lit "aSiller" ++ [30])
  ++ (lit "028@ " ++ [31] ++ lit "PŠiller" ++ [30])
  ++ (lit "028@ " ++ [31] ++ lit "PŞiller" ++ [30])
  ++ (lit "028@ " ++ [31] ++ lit "dFr." ++ [31] ++ lit "aŠillers" ++ [30])
  ++ (lit "028@ " ++ [31] ++ lit "PŠīllir" ++ [30])
  ++ (lit "028@ " ++ [31] ++ lit "dP'ŭridŭrihi" ++ [31] ++ lit "aSillŏ" ++ [30])
  ++ (lit "028@ " ++ [31] ++ lit "PShih-lo" ++ [31] ++ lit "vchines. Namensform" ++ [30])
  ++ (lit "028@ " ++ [31] ++ lit "dYūhān Krīstuf Fridīk" ++ [31] ++ lit "cfun" ++ [31] ++ lit "aŠīlir" ++ [30])
  ++ (lit "028@ " ++ [31] ++ lit "dF." ++ [31] ++ lit "aSillr" ++ [30])
  ++ (lit "028@ " ++ [31] ++ lit "PSchyller" ++ [30])
  ++ (lit "028@ " ++ [31] ++ lit "PFu li de li xi Xi le" ++ [30])
  ++ (lit "028@ " ++ [31] ++ lit "PFulidelixi-Xile" ++ [30])
  ++ (lit "028@ " ++ [31] ++ lit "dFulidelixi" ++ [31] ++ lit "aXile" ++ [30])
  ++ (lit "028@ " ++ [31] ++ lit "PXile" ++ [30])
  ++ (lit "028@ " ++ [31] ++ lit "dFridrikh" ++ [31] ++ lit "aShiler" ++ [30])
  ++ (lit "028@ " ++ [31] ++ lit "dFridrikh" ++ [31] ++ lit "aShiller" ++ [30])
  ++ (lit "028@ " ++ [31] ++ lit "dF." ++ [31] ++ lit "aSinle" ++ [30])
  ++ (lit "028@ " ++ [31] ++ lit "dPiririx" ++ [31] ++ lit "aSileri" ++ [30])
  ++ (lit "028@ " ++ [31] ++ lit "dPʹridrix" ++ [31] ++ lit "aŠileri" ++ [30])
  ++ (lit "028@ " ++ [31] ++ lit "dPiaeuridaeurihi" ++ [31] ++ lit "aSwillaeo" ++ [30])
  ++ (lit "028@ " ++ [31] ++ lit "dFrydrych" ++ [31] ++ lit "a0̆yler" ++ [30])
  ++ (lit "028@ " ++ [31] ++ lit "dFryderyk" ++ [31] ++ lit "aSzyller" ++ [30])
  ++ (lit "028@ " ++ [31] ++ lit "dFarīdrīk" ++ [31] ++ lit "aŠīlar" ++ [30])
  ++ (lit "028@ " ++ [31] ++ lit "PY." ++ [30])
  ++ (lit "028@ " ++ [31] ++ lit "PHsi-le" ++ [30])
  ++ (lit "028@ " ++ [31] ++ lit "PHsi-lo" ++ [30])
  ++ (lit "028@ " ++ [31] ++ lit "dFridriẖ" ++ [31] ++ lit "aŠiller" ++ [30])
  ++ (lit "028@ " ++ [31] ++ lit "PHogarth" ++ [31] ++ lit "4pseu" ++ [30])
  ++ (lit "028@ " ++ [31] ++ lit "dFridrichẏ" ++ [31] ++ lit "aŠiller" ++ [31] ++ lit "vosset. Namensform" ++ [30])
  ++ (lit "028@ " ++ [31] ++ lit "dFrydrych" ++ [31] ++ lit "aŠyler" ++ [30])
  ++ (lit "028@ " ++ [31] ++ lit "dFurīdorihi" ++ [31] ++ lit "cfon" ++ [31] ++ lit "aShirā" ++ [30])
  ++ (lit "028@ " ++ [31] ++ lit "dMiroslav" ++ [31] ++ lit "aŠiler" ++ [30])
  ++ (lit "028@ " ++ [31] ++ lit "T01" ++ [31] ++ lit "UHans" ++ [31] ++ lit "P弗里德里希·席勒" ++ [31] ++ lit "5DE-576" ++ [30])
  ++ (lit "028@ " ++ [31] ++ lit "T01" ++ [31] ++ lit "UHans" ++ [31] ++ lit "P席勒" ++ [30])
  ++ (lit "028@ " ++ [31] ++ lit "T01" ++ [31] ++ lit "UCyrl" ++ [31] ++ lit "Lmac" ++ [31] ++ lit "dФридрих" ++ [31] ++ lit "aШилер" ++ [30])
  ++ (lit "028@ " ++ [31] ++ lit "T01" ++ [31] ++ lit "UCyrl" ++ [31] ++ lit "Lbel" ++ [31] ++ lit "dФрыдрых" ++ [31] ++ lit "aШылер" ++ [30])
  ++ (lit "028A " ++ [31] ++ lit "dFriedrich" ++ [31] ++ lit "aSchiller" ++ [30])
  ++ (lit "028P " ++ [31] ++ lit "dFriedrich" ++ [31] ++ lit "aSchiller" ++ [31] ++ lit "SDLC" ++ [31] ++ lit "0n 79111538" ++ [31] ++ lit "2naf" ++ [31] ++ lit "v1759-1805" ++ [30])
  ++ (lit "028P " ++ [31] ++ lit "T01" ++ [31] ++ lit "UCyrl" ++ [31] ++ lit "dФ." ++ [31] ++ lit "aШиллер" ++ [30])
  ++ (lit "028P " ++ [31] ++ lit "T01" ++ [31] ++ lit "UCyrl" ++ [31] ++ lit "Lmac" ++ [31] ++ lit "dФридрих" ++ [31] ++ lit "aШилер" ++ [31] ++ lit "vOriginal" ++ [30])
  ++ (lit "028P " ++ [31] ++ lit "T01" ++ [31] ++ lit "UKore" ++ [31] ++ lit "d프리드리히" ++ [31] ++ lit "a실러" ++ [31] ++ lit "5DE-576" ++ [30])
  ++ (lit "028P " ++ [31] ++ lit "T01" ++ [31] ++ lit "UHans" ++ [31] ++ lit "d弗里德里希" ++ [31] ++ lit "a席勒" ++ [31] ++ lit "5DE-576" ++ [30])
  ++ (lit "028P " ++ [31] ++ lit "T01" ++ [31] ++ lit "UHebr" ++ [31] ++ lit "dפרידריך" ++ [31] ++ lit "aשילר" ++ [31] ++ lit "5DE-576" ++ [30])
  ++ (lit "028P " ++ [31] ++ lit "T01" ++ [31] ++ lit "UArab" ++ [31] ++ lit "Luig" ++ [31] ++ lit "dڧىرېدىرى" ++ [31] ++ lit "aشىللېر" ++ [30])
  ++ (lit "028P " ++ [31] ++ lit "T01" ++ [31] ++ lit "UCyrl" ++ [31] ++ lit "Lbel" ++ [31] ++ lit "dФрыдрых" ++ [31] ++ lit "aШылер" ++ [31] ++ lit "vOriginal" ++ [30])
  ++ (lit "028R " ++ [31] ++ lit "9119072769" ++ [31] ++ lit "7Tp1" ++ [31] ++ lit "Vpiz" ++ [31] ++ lit "Agnd" ++ [31] ++ lit "0119072769" ++ [31] ++ lit "E1723" ++ [31] ++ lit "G1796" ++ [31] ++ lit "dJohann Caspar" ++ [31] ++ lit "aSchiller" ++ [31] ++ lit "4bezf" ++ [31] ++ lit "vVater" ++ [30])
  ++ (lit "028R " ++ [31] ++ lit "911879499X" ++ [31] ++ lit "7Tp1" ++ [31] ++ lit "Vpiz" ++ [31] ++ lit "Agnd" ++ [31] ++ lit "011879499X" ++ [31] ++ lit "E1732" ++ [31] ++ lit "G1801" ++ [31] ++ lit "dElisabetha Dorothea" ++ [31] ++ lit "aSchiller" ++ [31] ++ lit "4bezf" ++ [31] ++ lit "vMutter" ++ [30])
  ++ (lit "028R " ++ [31] ++ lit "910105128X" ++ [31] ++ lit "7Tp1" ++ [31] ++ lit "Vpiz" ++ [31] ++ lit "Agnd" ++ [31] ++ lit "010105128X" ++ [31] ++ lit "E1760" ++ [31] ++ lit "G1818" ++ [31] ++ lit "dLudwig Friedrich" ++ [31] ++ lit "aGrub" ++ [31] ++ lit "4beza" ++ [31] ++ lit "vMitschüler" ++ [30])
  ++ (lit "028R " ++ [31] ++ lit "91012276740" ++ [31] ++ lit "7Tp1" ++ [31] ++ lit "Vpiz" ++ [31] ++ lit "Agnd" ++ [31] ++ lit "01012276740" ++ [31] ++ lit "E1759" ++ [31] ++ lit "G1791" ++ [31] ++ lit "dFranz Joseph" ++ [31] ++ lit "aKapf" ++ [31] ++ lit "4beza" ++ [31] ++ lit "vFreund" ++ [30])
  ++ (lit "028R " ++ [31] ++ lit "91079186107" ++ [31] ++ lit "7Tp3" ++ [31] ++ lit "Vpiz" ++ [31] ++ lit "Agnd" ++ [31] ++ lit "01079186107" ++ [31] ++ lit "E1759" ++ [31] ++ lit "G1781" ++ [31] ++ lit "dJohann Christian" ++ [31] ++ lit "aWeckerlin" ++ [31] ++ lit "4beza" ++ [31] ++ lit "vFreund" ++ [30])
  ++ (lit "028R " ++ [31] ++ lit "9118754971" ++ [31] ++ lit "7Tp1" ++ [31] ++ lit "Vpiz" ++ [31] ++ lit "Agnd" ++ [31] ++ lit "0118754971" ++ [31] ++ lit "E1766" ++ [31] ++ lit "G1826" ++ [31] ++ lit "dCharlotte" ++ [31] ++ lit "aSchiller" ++ [31] ++ lit "cvon" ++ [31] ++ lit "4bezf" ++ [31] ++ lit "vEhefrau seit 1790" ++ [30])
  ++ (lit "028R " ++ [31] ++ lit "9117267953" ++ [31] ++ lit "7Tp1" ++ [31] ++ lit "Vpiz" ++ [31] ++ lit "Agnd" ++ [31] ++ lit "0117267953" ++ [31] ++ lit "E1793" ++ [31] ++ lit "G1857" ++ [31] ++ lit "dKarl" ++ [31] ++ lit "aSchiller" ++ [31] ++ lit "4bezf" ++ [31] ++ lit "vSohn" ++ [30])
  ++ (lit "028R " ++ [31] ++ lit "9117267090" ++ [31] ++ lit "7Tp1" ++ [31] ++ lit "Vpiz" ++ [31] ++ lit "Agnd" ++ [31] ++ lit "0117267090" ++ [31] ++ lit "E1796" ++ [31] ++ lit "G1841" ++ [31] ++ lit "dErnst" ++ [31] ++ lit "aSchiller" ++ [31] ++ lit "cvon" ++ [31] ++ lit "4bezf" ++ [31] ++ lit "vSohn" ++ [30])
  ++ (lit "028R " ++ [31] ++ lit "9116657979" ++ [31] ++ lit "7Tp1" ++ [31] ++ lit "Vpiz" ++ [31] ++ lit "Agnd" ++ [31] ++ lit "0116657979" ++ [31] ++ lit "E1804" ++ [31] ++ lit "G1872" ++ [31] ++ lit "dEmilie" ++ [31] ++ lit "aGleichen-Russwurm" ++ [31] ++ lit "cvon" ++ [31] ++ lit "4bezf" ++ [31] ++ lit "vTochter" ++ [30])
  ++ (lit "028R " ++ [31] ++ lit "9116658002" ++ [31] ++ lit "7Tp1" ++ [31] ++ lit "Vpiz" ++ [31] ++ lit "Agnd" ++ [31] ++ lit "0116658002" ++ [31] ++ lit "E1803" ++ [31] ++ lit "G1887" ++ [31] ++ lit "dHeinrich Adalbert" ++ [31] ++ lit "aGleichen-Russwurm" ++ [31] ++ lit "cvon" ++ [31] ++ lit "4bezf" ++ [31] ++ lit "vSchwiegersohn" ++ [30])
  ++ (lit "028R " ++ [31] ++ lit "9119371456" ++ [31] ++ lit "7Tp1" ++ [31] ++ lit "Vpiz" ++ [31] ++ lit "Agnd" ++ [31] ++ lit "0119371456" ++ [31] ++ lit "E1865" ++ [31] ++ lit "G1947" ++ [31] ++ lit "dAlexander" ++ [31] ++ lit "aGleichen-Rußwurm" ++ [31] ++ lit "lFreiherr von" ++ [31] ++ lit "4bezf" ++ [31] ++ lit "vUrenkel" ++ [30])
  ++ (lit "028R " ++ [31] ++ lit "9118771272" ++ [31] ++ lit "7Tp1" ++ [31] ++ lit "Vpiz" ++ [31] ++ lit "Agnd" ++ [31] ++ lit "0118771272" ++ [31] ++ lit "E1763" ++ [31] ++ lit "G1847" ++ [31] ++ lit "dKaroline" ++ [31] ++ lit "aWolzogen" ++ [31] ++ lit "cvon" ++ [31] ++ lit "4bezf" ++ [31] ++ lit "vSchwägerin" ++ [30])
  ++ (lit "028R " ++ [31] ++ lit "9135995310" ++ [31] ++ lit "7Tp1" ++ [31] ++ lit "Vpif" ++ [31] ++ lit "Agnd" ++ [31] ++ lit "0135995310" ++ [31] ++ lit "D16. Jh." ++ [31] ++ lit "PUschalk" ++ [31] ++ lit "lFamilie" ++ [31] ++ lit "4bezf" ++ [31] ++ lit "vVorfahren" ++ [30])
  ++ (lit "028R " ++ [31] ++ lit "9118540238" ++ [31] ++ lit "7Tpz" ++ [31] ++ lit "Vpiz" ++ [31] ++ lit "Agnd" ++ [31] ++ lit "0118540238" ++ [31] ++ lit "E1749" ++ [31] ++ lit "G1832" ++ [31] ++ lit "dJohann Wolfgang" ++ [31] ++ lit "aGoethe" ++ [31] ++ lit "cvon" ++ [31] ++ lit "4beza" ++ [30])
  ++ (lit "028R " ++ [31] ++ lit "911852240X" ++ [31] ++ lit "7Tp1" ++ [31] ++ lit "Vpiz" ++ [31] ++ lit "Agnd" ++ [31] ++ lit "011852240X" ++ [31] ++ lit "E1764" ++ [31] ++ lit "G1832" ++ [31] ++ lit "dJohann Friedrich" ++ [31] ++ lit "aCotta" ++ [31] ++ lit "cvon" ++ [31] ++ lit "4bezb" ++ [30])
  ++ (lit "028R " ++ [31] ++ lit "9117240281" ++ [31] ++ lit "7Tp1" ++ [31] ++ lit "Vpiz" ++ [31] ++ lit "Agnd" ++ [31] ++ lit "0117240281" ++ [31] ++ lit "E1799" ++ [31] ++ lit "G1850" ++ [31] ++ lit "dCaroline Friederike Luise" ++ [31] ++ lit "aJunot" ++ [31] ++ lit "4bezf" ++ [31] ++ lit "vTochter" ++ [30])
  ++ (lit "028R " ++ [31] ++ lit "91012273571" ++ [31] ++ lit "7Tp1" ++ [31] ++ lit "Vpiz" ++ [31] ++ lit "Agnd" ++ [31] ++ lit "01012273571" ++ [31] ++ lit "E1756" ++ [31] ++ lit "G1840" ++ [31] ++ lit "dAnna" ++ [31] ++ lit "aHölzel" ++ [31] ++ lit "4beza" ++ [31] ++ lit "vBekannte" ++ [30])
  ++ (lit "029R " ++ [31] ++ lit "9962527017" ++ [31] ++ lit "7Tb1" ++ [31] ++ lit "Vkiz" ++ [31] ++ lit "Agnd" ++ [31] ++ lit "06018412-7" ++ [31] ++ lit "aSchillers Geburtshaus" ++ [31] ++ lit "4affi" ++ [30])
  ++ (lit "029R " ++ [31] ++ lit "9007121741" ++ [31] ++ lit "7Tb1" ++ [31] ++ lit "Vkiz" ++ [31] ++ lit "Agnd" ++ [31] ++ lit "02060690-4" ++ [31] ++ lit "aGrossherzogliches Hof- und Nationaltheater Mannheim" ++ [31] ++ lit "4affi" ++ [31] ++ lit "vHausdichter" ++ [31] ++ lit "Z01.09.1783 - August 1784" ++ [30])
  ++ (lit "032T " ++ [31] ++ lit "am" ++ [30])
  ++ (lit "041R " ++ [31] ++ lit "9040533093" ++ [31] ++ lit "7Tsz" ++ [31] ++ lit "Vsaz" ++ [31] ++ lit "Agnd" ++ [31] ++ lit "04053309-8" ++ [31] ++ lit "aSchriftsteller" ++ [31] ++ lit "4berc" ++ [30])
  ++ (lit "041R " ++ [31] ++ lit "9041402413" ++ [31] ++ lit "7Ts1" ++ [31] ++ lit "Vsaz" ++ [31] ++ lit "Agnd" ++ [31] ++ lit "04140241-8" ++ [31] ++ lit "aDramatiker" ++ [31] ++ lit "4beru" ++ [30])
  ++ (lit "041R " ++ [31] ++ lit "9041529677" ++ [31] ++ lit "7Ts1" ++ [31] ++ lit "Vsaz" ++ [31] ++ lit "Agnd" ++ [31] ++ lit "04152967-4" ++ [31] ++ lit "aErzähler" ++ [31] ++ lit "4beru" ++ [30])
  ++ (lit "041R " ++ [31] ++ lit "9040250989" ++ [31] ++ lit "7Ts1" ++ [31] ++ lit "Vsaz" ++ [31] ++ lit "Agnd" ++ [31] ++ lit "04025098-2" ++ [31] ++ lit "aHistoriker" ++ [31] ++ lit "4beru" ++ [30])
  ++ (lit "041R " ++ [31] ++ lit "9040252434" ++ [31] ++ lit "7Ts1" ++ [31] ++ lit "Vsaz" ++ [31] ++ lit "Agnd" ++ [31] ++ lit "04025243-7" ++ [31] ++ lit "aHochschullehrer" ++ [31] ++ lit "4beru" ++ [30])
  ++ (lit "041R " ++ [31] ++ lit "9041675649" ++ [31] ++ lit "7Ts1" ++ [31] ++ lit "Vsaz" ++ [31] ++ lit "Agnd" ++ [31] ++ lit "04167564-2" ++ [31] ++ lit "aLibrettist" ++ [31] ++ lit "4beru" ++ [30])
  ++ (lit "041R " ++ [31] ++ lit "9040765709" ++ [31] ++ lit "7Ts1" ++ [31] ++ lit "Vsaz" ++ [31] ++ lit "Agnd" ++ [31] ++ lit "04076570-2" ++ [31] ++ lit "aRechtswissenschaft" ++ [31] ++ lit "4stud" ++ [30])
  ++ (lit "041R " ++ [31] ++ lit "9040382435" ++ [31] ++ lit "7Tsz" ++ [31] ++ lit "Vsaz" ++ [31] ++ lit "Agnd" ++ [31] ++ lit "04038243-6" ++ [31] ++ lit "aMedizin" ++ [31] ++ lit "4stud" ++ [30])
  ++ (lit "042A " ++ [31] ++ lit "a12.2p" ++ [31] ++ lit "a16.1p" ++ [30])
  ++ (lit "042B " ++ [31] ++ lit "aXA-DE" ++ [30])
  ++ (lit "042C " ++ [31] ++ lit "ager" ++ [30])
  ++ (lit "046G " ++ [31] ++ lit "aDie Braut von Messina, oder die feindlichen Brüder" ++ [31] ++ lit "f1803" ++ [30])
  ++ (lit "046G " ++ [31] ++ lit "aBriefe an den Freyherrn Heribert von Dalberg" ++ [31] ++ lit "f1819" ++ [30])
  ++ (lit "046G " ++ [31] ++ lit "aBriefwechsel zwischen Schiller und Göthe. - 1828 - 1829" ++ [30])
  ++ (lit "046G " ++ [31] ++ lit "aBriefwechsel zwischen Schiller und Wilhelm von Humboldt" ++ [31] ++ lit "f1830" ++ [30])
  ++ (lit "046G " ++ [31] ++ lit "aDon Carlos" ++ [31] ++ lit "f1804" ++ [30])
  ++ (lit "046G " ++ [31] ++ lit "aGedichte. - 1807 - 1808" ++ [30])
  ++ (lit "047A/03 " ++ [31] ++ lit "eDE-101" ++ [30])
  ++ (lit "047A/03 " ++ [31] ++ lit "rDE-101" ++ [30])
  ++ (lit "047C " ++ [31] ++ lit "Spnd" ++ [31] ++ lit "ia" ++ [31] ++ lit "aSchiller, Friedrich" ++ [31] ++ lit "0118607626" ++ [30])
  ++ (lit "047C " ++ [31] ++ lit "Spnd" ++ [31] ++ lit "ia" ++ [31] ++ lit "aSchiller, Friedrich" ++ [31] ++ lit "017404092X" ++ [30])
  ++ (lit "047C " ++ [31] ++ lit "Spnd" ++ [31] ++ lit "ia" ++ [31] ++ lit "aSchiller, Friedrich" ++ [31] ++ lit "0174166745" ++ [30])
  ++ (lit "047C " ++ [31] ++ lit "Spnd" ++ [31] ++ lit "ia" ++ [31] ++ lit "aSchiller, Friedrich /von" ++ [31] ++ lit "0189458372" ++ [30])
  ++ (lit "047C " ++ [31] ++ lit "Spnd" ++ [31] ++ lit "ia" ++ [31] ++ lit "aSchiller, Friedrich von" ++ [31] ++ lit "0159164559" ++ [30])
  ++ (lit "050C " ++ [31] ++ lit "a12" ++ [30])
  ++ (lit "050C " ++ [31] ++ lit "a7" ++ [30])
  ++ (lit "050C " ++ [31] ++ lit "a384" ++ [30])
  ++ (lit "050C " ++ [31] ++ lit "aOENAK" ++ [30])
  ++ (lit "050C " ++ [31] ++ lit "aDBSM" ++ [30])
  ++ (lit "050C " ++ [31] ++ lit "aVD-18" ++ [30])
  ++ (lit "050C " ++ [31] ++ lit "aLABI-BW-WLB" ++ [30])
  ++ (lit "050C " ++ [31] ++ lit "aBuchbesitz: HAAB Weimar" ++ [30])
  ++ (lit "050C " ++ [31] ++ lit "aHogarth ist ein Pseud. von Friedrich Schiller" ++ [30])
  ++ (lit "050C " ++ [31] ++ lit "aSAEBI" ++ [31] ++ lit "5DE-14" ++ [30])
  ++ (lit "050C " ++ [31] ++ lit "aPacelli-Edition" ++ [30])
  ++ (lit "050E " ++ [31] ++ lit "aWikipedia" ++ [30])
  ++ (lit "050E " ++ [31] ++ lit "aDbA (WBIS)" ++ [30])
  ++ (lit "050E " ++ [31] ++ lit "aDeutsche Biographie" ++ [31] ++ lit "uhttp://www.deutsche-biographie.de" ++ [30])
  ++ (lit "050E " ++ [31] ++ lit "aLandesbibliographie Baden-Württemberg" ++ [30])
  ++ (lit "050E " ++ [31] ++ lit "aProvenienzmerkmal" ++ [30])
  ++ (lit "050E " ++ [31] ++ lit "aVorlage" ++ [30])
  ++ (lit "050E " ++ [31] ++ lit "aLCAuth/GND" ++ [30])
  ++ (lit "050E " ++ [31] ++ lit "aHomepage" ++ [31] ++ lit "bStand: 19.03.2020" ++ [31] ++ lit "uhttp://www.pacelli-edition.de/Biographie/9527" ++ [30])
  ++ (lit "050E " ++ [31] ++ lit "aMARCHIVUM" ++ [31] ++ lit "bStand:11.07.2022" ++ [31] ++ lit "uhttps://scope.mannheim.de/detail.aspx?ID=780658" ++ [30])
  ++ (lit "050G " ++ [31] ++ lit "b1789 Professor für Geschichte in Jena; 1802 nobilitiert" ++ [30])
  ++ (lit "060R " ++ [31] ++ lit "a1759" ++ [31] ++ lit "b1805" ++ [31] ++ lit "4datl" ++ [30])
  ++ (lit "060R " ++ [31] ++ lit "a10.11.1759" ++ [31] ++ lit "b09.05.1805" ++ [31] ++ lit "4datx" ++ [30])
  ++ (lit "065R " ++ [31] ++ lit "9040374432" ++ [31] ++ lit "7Tg1" ++ [31] ++ lit "Vgik" ++ [31] ++ lit "Agnd" ++ [31] ++ lit "04037443-9" ++ [31] ++ lit "aMarbach am Neckar" ++ [31] ++ lit "4ortg" ++ [30])
  ++ (lit "065R " ++ [31] ++ lit "9040651053" ++ [31] ++ lit "7Tg1" ++ [31] ++ lit "Vgik" ++ [31] ++ lit "Agnd" ++ [31] ++ lit "04065105-8" ++ [31] ++ lit "aWeimar" ++ [31] ++ lit "4orts" ++ [30])
  ++ (lit "065R " ++ [31] ++ lit "904028557X" ++ [31] ++ lit "7Tg1" ++ [31] ++ lit "Vgik" ++ [31] ++ lit "Agnd" ++ [31] ++ lit "04028557-1" ++ [31] ++ lit "aJena" ++ [31] ++ lit "4ortw" ++ [30])
  ++ (lit "065R " ++ [31] ++ lit "904037372X" ++ [31] ++ lit "7Tg1" ++ [31] ++ lit "Vgik" ++ [31] ++ lit "Agnd" ++ [31] ++ lit "04037372-1" ++ [31] ++ lit "aMannheim" ++ [31] ++ lit "4ortw" ++ [30])
  ++ (lit "070A/02 " ++ [31] ++ lit "SDE-Wi17FP" ++ [31] ++ lit "076DC042C1C20404EB780B3BA8A3B1BA7" ++ [30])
  ++ (lit "070A/03 " ++ [31] ++ lit "SDE-101" ++ [31] ++ lit "0118607626" ++ [30])
  ++ [10].

(** /repo/tests/data/samples.dat.gz, decompressed *)
Definition samples_gz : bytes := samples_gz_1 ++ samples_gz_2.
