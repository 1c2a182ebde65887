(** * Data files of the tests of the project (/repo/tests/data) *)

From Coq Require Import String.
From Verif Require Import Bytes.

(** /repo/tests/data/ada.dat *)
Definition ada : bytes :=
  (lit "001A " ++ [31] ++ lit "00386:16-03-95" ++ [30])
  ++ (lit "001B " ++ [31] ++ lit "08999:20-07-20" ++ [31] ++ lit "t13:19:49.000" ++ [30])
  ++ (lit "001D " ++ [31] ++ lit "09999:06-04-08" ++ [30])
  ++ (lit "001U " ++ [31] ++ lit "0utf8" ++ [30])
  ++ (lit "001X " ++ [31] ++ lit "00" ++ [30])
  ++ (lit "002@ " ++ [31] ++ lit "0Tp1" ++ [30])
  ++ (lit "003@ " ++ [31] ++ lit "0119232022" ++ [30])
  ++ (lit "003U " ++ [31] ++ lit "ahttp://d-nb.info/gnd/119232022" ++ [31] ++ lit "zhttp://d-nb.info/gnd/172642531" ++ [30])
  ++ (lit "004B " ++ [31] ++ lit "apik" ++ [30])
  ++ (lit "007K " ++ [31] ++ lit "agnd" ++ [31] ++ lit "0119232022" ++ [30])
  ++ (lit "007N " ++ [31] ++ lit "agnd" ++ [31] ++ lit "0172642531" ++ [30])
  ++ (lit "007N " ++ [31] ++ lit "apnd" ++ [31] ++ lit "0172642531" ++ [31] ++ lit "vzg" ++ [30])
  ++ (lit "007N " ++ [31] ++ lit "apnd" ++ [31] ++ lit "0119232022" ++ [31] ++ lit "vzg" ++ [30])
  ++ (lit "007N " ++ [31] ++ lit "aswd" ++ [31] ++ lit "04370325-2" ++ [31] ++ lit "vzg" ++ [30])
  ++ (lit "008A " ++ [31] ++ lit "as" ++ [31] ++ lit "az" ++ [31] ++ lit "af" ++ [30])
  ++ (lit "008B " ++ [31] ++ lit "aw" ++ [31] ++ lit "ak" ++ [31] ++ lit "av" ++ [30])
  ++ (lit "010E " ++ [31] ++ lit "erda" ++ [30])
  ++ (lit "028@ " ++ [31] ++ lit "dAda K." ++ [31] ++ lit "cof" ++ [31] ++ lit "aLovelace" ++ [30])
  ++ (lit "028@ " ++ [31] ++ lit "dAugusta Ada" ++ [31] ++ lit "cof" ++ [31] ++ lit "aLovelace" ++ [30])
  ++ (lit "028@ " ++ [31] ++ lit "dAda Augusta" ++ [31] ++ lit "cof" ++ [31] ++ lit "aLovelace" ++ [30])
  ++ (lit "028@ " ++ [31] ++ lit "dAda" ++ [31] ++ lit "aByron" ++ [30])
  ++ (lit "028@ " ++ [31] ++ lit "dAugusta Ada" ++ [31] ++ lit "aByron King" ++ [30])
  ++ (lit "028@ " ++ [31] ++ lit "dAugusta Ada" ++ [31] ++ lit "aKing" ++ [30])
  ++ (lit "028@ " ++ [31] ++ lit "dAda" ++ [31] ++ lit "aKing" ++ [30])
  ++ (lit "028@ " ++ [31] ++ lit "dAda Augusta" ++ [31] ++ lit "aByron" ++ [31] ++ lit "4nafr" ++ [30])
  ++ (lit "028@ " ++ [31] ++ lit "dAugusta Ada" ++ [31] ++ lit "aByron" ++ [30])
  ++ (lit "028@ " ++ [31] ++ lit "dAda" ++ [31] ++ lit "aByron Lovelace" ++ [30])
  ++ (lit "028@ " ++ [31] ++ lit "dAda" ++ [31] ++ lit "aLovelace" ++ [30])
  ++ (lit "028@ " ++ [31] ++ lit "dAda King, Countess of" ++ [31] ++ lit "aLovelace" ++ [30])
  ++ (lit "028@ " ++ [31] ++ lit "dAugusta Ada King" ++ [31] ++ lit "aLovelace" ++ [30])
  ++ (lit "028@ " ++ [31] ++ lit "dAugusta Ada" ++ [31] ++ lit "aLovelace" ++ [30])
  ++ (lit "028A " ++ [31] ++ lit "dAda King" ++ [31] ++ lit "cof" ++ [31] ++ lit "aLovelace" ++ [30])
  ++ (lit "028R " ++ [31] ++ lit "9118518208" ++ [31] ++ lit "7Tp1" ++ [31] ++ lit "Vpiz" ++ [31] ++ lit "Agnd" ++ [31] ++ lit "0118518208" ++ [31] ++ lit "E1788" ++ [31] ++ lit "G1824" ++ [31] ++ lit "dGeorge Gordon Byron" ++ [31] ++ lit "aByron" ++ [31] ++ lit "lBaron" ++ [31] ++ lit "4bezf" ++ [31] ++ lit "vVater" ++ [30])
  ++ (lit "028R " ++ [31] ++ lit "9118638130" ++ [31] ++ lit "7Tp1" ++ [31] ++ lit "Vpiz" ++ [31] ++ lit "Agnd" ++ [31] ++ lit "0118638130" ++ [31] ++ lit "E1792" ++ [31] ++ lit "G1860" ++ [31] ++ lit "dAnne Isabella Milbanke Byron" ++ [31] ++ lit "aByron" ++ [31] ++ lit "4bezf" ++ [31] ++ lit "vMutter" ++ [30])
  ++ (lit "028R " ++ [31] ++ lit "9119389991" ++ [31] ++ lit "7Tp1" ++ [31] ++ lit "Vpiz" ++ [31] ++ lit "Agnd" ++ [31] ++ lit "0119389991" ++ [31] ++ lit "E1837" ++ [31] ++ lit "G1917" ++ [31] ++ lit "dAnne Isabella" ++ [31] ++ lit "aBlunt" ++ [31] ++ lit "4bezf" ++ [31] ++ lit "vTochter" ++ [30])
  ++ (lit "028R " ++ [31] ++ lit "dwilliam" ++ [31] ++ lit "aking" ++ [31] ++ lit "4bezf" ++ [30])
  ++ (lit "032T " ++ [31] ++ lit "af" ++ [30])
  ++ (lit "041R " ++ [31] ++ lit "9042527880" ++ [31] ++ lit "7Ts1" ++ [31] ++ lit "Vsaz" ++ [31] ++ lit "Agnd" ++ [31] ++ lit "04252788-0" ++ [31] ++ lit "aMathematikerin" ++ [31] ++ lit "4berc" ++ [30])
  ++ (lit "042A " ++ [31] ++ lit "a28p" ++ [31] ++ lit "a9.5p" ++ [30])
  ++ (lit "042B " ++ [31] ++ lit "aXA-GB" ++ [30])
  ++ (lit "047A/03 " ++ [31] ++ lit "eDE-386" ++ [30])
  ++ (lit "047A/03 " ++ [31] ++ lit "rDE-576" ++ [30])
  ++ (lit "047C " ++ [31] ++ lit "Spnd" ++ [31] ++ lit "ia" ++ [31] ++ lit "aLovelace, Ada King /of" ++ [31] ++ lit "0119232022" ++ [30])
  ++ (lit "047C " ++ [31] ++ lit "Spnd" ++ [31] ++ lit "ia" ++ [31] ++ lit "aLovelace, Ada K. /of" ++ [31] ++ lit "0172642531" ++ [30])
  ++ (lit "050C " ++ [31] ++ lit "aDer Ehemann Baron William King (1805-1893) wurde 1838 zum 1. Earl of Lovelace erhoben." ++ [30])
  ++ (lit "050E " ++ [31] ++ lit "aLoC-Na gegen Modern Engl. biogr." ++ [30])
  ++ (lit "050E " ++ [31] ++ lit "ahttps://de.wikipedia.org/wiki/Ada_Lovelace" ++ [30])
  ++ (lit "050E " ++ [31] ++ lit "aLCAuth, (OGND)" ++ [30])
  ++ (lit "050G " ++ [31] ++ lit "bBrit. Mathematikerin; Countess of Lovelace" ++ [30])
  ++ (lit "050G " ++ [31] ++ lit "bInformatikerin, Mathematikerin, Grossbritannien" ++ [30])
  ++ (lit "060R " ++ [31] ++ lit "a10.12.1815" ++ [31] ++ lit "b27.12.1852" ++ [31] ++ lit "4datx" ++ [30])
  ++ (lit "060R " ++ [31] ++ lit "a1815" ++ [31] ++ lit "b1852" ++ [31] ++ lit "4datl" ++ [30])
  ++ (lit "065R " ++ [31] ++ lit "9040743357" ++ [31] ++ lit "7Tgz" ++ [31] ++ lit "Vgik" ++ [31] ++ lit "Agnd" ++ [31] ++ lit "04074335-4" ++ [31] ++ lit "aLondon" ++ [31] ++ lit "4ortg" ++ [30])
  ++ (lit "065R " ++ [31] ++ lit "9040743357" ++ [31] ++ lit "7Tgz" ++ [31] ++ lit "Vgik" ++ [31] ++ lit "Agnd" ++ [31] ++ lit "04074335-4" ++ [31] ++ lit "aLondon" ++ [31] ++ lit "4orts" ++ [30])
  ++ (lit "070A/03 " ++ [31] ++ lit "0(DE-588)119232022" ++ [30])
  ++ [10].

(** /repo/tests/data/algebra.dat *)
Definition algebra : bytes :=
  (lit "001A " ++ [31] ++ lit "01250:01-07-88" ++ [30])
  ++ (lit "001B " ++ [31] ++ lit "01250:24-04-19" ++ [31] ++ lit "t15:55:35.000" ++ [30])
  ++ (lit "001D " ++ [31] ++ lit "09999:17-01-09" ++ [30])
  ++ (lit "001U " ++ [31] ++ lit "0utf8" ++ [30])
  ++ (lit "001X " ++ [31] ++ lit "00" ++ [30])
  ++ (lit "002@ " ++ [31] ++ lit "0Ts1" ++ [30])
  ++ (lit "003@ " ++ [31] ++ lit "0040011569" ++ [30])
  ++ (lit "003U " ++ [31] ++ lit "ahttp://d-nb.info/gnd/4001156-2" ++ [30])
  ++ (lit "004B " ++ [31] ++ lit "asaz" ++ [30])
  ++ (lit "007K " ++ [31] ++ lit "agnd" ++ [31] ++ lit "04001156-2" ++ [30])
  ++ (lit "007N " ++ [31] ++ lit "aswd" ++ [31] ++ lit "04001156-2" ++ [31] ++ lit "vzg" ++ [30])
  ++ (lit "008A " ++ [31] ++ lit "as" ++ [30])
  ++ (lit "008B " ++ [31] ++ lit "aw" ++ [31] ++ lit "az" ++ [31] ++ lit "ao" ++ [30])
  ++ (lit "037G " ++ [31] ++ lit "c512" ++ [31] ++ lit "d3" ++ [31] ++ lit "t2007-01-01" ++ [30])
  ++ (lit "041@ " ++ [31] ++ lit "aAxiomatische Algebra" ++ [30])
  ++ (lit "041@ " ++ [31] ++ lit "aFormale Algebra" ++ [30])
  ++ (lit "041@ " ++ [31] ++ lit "aHöhere Algebra" ++ [30])
  ++ (lit "041A " ++ [31] ++ lit "aAlgebra" ++ [30])
  ++ (lit "041P " ++ [31] ++ lit "aAlgebra" ++ [31] ++ lit "uhttp://lccn.loc.gov/sh85003425" ++ [31] ++ lit "SDLC" ++ [31] ++ lit "0sh 85003425" ++ [31] ++ lit "2lcsh" ++ [31] ++ lit "vMACS-Mapping. Bitte keine Änderungen vornehmen." ++ [30])
  ++ (lit "041P " ++ [31] ++ lit "aAlgèbre" ++ [31] ++ lit "uhttp://data.bnf.fr/11930858" ++ [31] ++ lit "SFrPBN" ++ [31] ++ lit "0FRBNF119308582" ++ [31] ++ lit "2ram" ++ [31] ++ lit "vMACS-Mapping. Bitte keine Änderungen vornehmen." ++ [30])
  ++ (lit "041R " ++ [31] ++ lit "9040379442" ++ [31] ++ lit "7Tsz" ++ [31] ++ lit "Vsaz" ++ [31] ++ lit "Agnd" ++ [31] ++ lit "04037944-9" ++ [31] ++ lit "aMathematik" ++ [31] ++ lit "4obal" ++ [30])
  ++ (lit "042A " ++ [31] ++ lit "a28" ++ [30])
  ++ (lit "047A/03 " ++ [31] ++ lit "eDE-101" ++ [30])
  ++ (lit "047A/03 " ++ [31] ++ lit "rDE-101" ++ [30])
  ++ (lit "047C " ++ [31] ++ lit "Sswd" ++ [31] ++ lit "is" ++ [31] ++ lit "aAlgebra" ++ [31] ++ lit "04001156-2" ++ [30])
  ++ (lit "050E " ++ [31] ++ lit "aM, Au=DB" ++ [30])
  ++ (lit "050H " ++ [31] ++ lit "aohne Unterscheidung für die Disziplin der Mathematik und die Algebraische Struktur" ++ [30])
  ++ (lit "070A/02 " ++ [31] ++ lit "SMACS" ++ [31] ++ lit "00000478" ++ [30])
  ++ [10].

(** /repo/tests/data/goethe.dat *)
Definition goethe : bytes :=
  (lit "001A " ++ [31] ++ lit "01250:01-07-88" ++ [30])
  ++ (lit "001B " ++ [31] ++ lit "09999:15-04-22" ++ [31] ++ lit "t15:15:00.000" ++ [30])
  ++ (lit "001D " ++ [31] ++ lit "00292:01-08-19" ++ [30])
  ++ (lit "001U " ++ [31] ++ lit "0utf8" ++ [30])
  ++ (lit "001X " ++ [31] ++ lit "00" ++ [30])
  ++ (lit "002@ " ++ [31] ++ lit "0Tpz" ++ [30])
  ++ (lit "003@ " ++ [31] ++ lit "0118540238" ++ [30])
  ++ (lit "003U " ++ [31] ++ lit "ahttp://d-nb.info/gnd/118540238" ++ [31] ++ lit "zhttp://d-nb.info/gnd/185808069" ++ [31] ++ lit "zhttp://d-nb.info/gnd/185848826" ++ [31] ++ lit "zhttp://d-nb.info/gnd/101488358X" ++ [31] ++ lit "zhttp://d-nb.info/gnd/1014927390" ++ [31] ++ lit "zhttp://d-nb.info/gnd/1022736213" ++ [31] ++ lit "zhttp://d-nb.info/gnd/1095607278" ++ [31] ++ lit "zhttp://d-nb.info/gnd/1131918517" ++ [30])
  ++ (lit "004B " ++ [31] ++ lit "apiz" ++ [30])
  ++ (lit "006Y " ++ [31] ++ lit "Sisni" ++ [31] ++ lit "00000 0001 2099 9104" ++ [30])
  ++ (lit "006Y " ++ [31] ++ lit "Swikidata" ++ [31] ++ lit "0Q5879" ++ [30])
  ++ (lit "007K " ++ [31] ++ lit "agnd" ++ [31] ++ lit "0118540238" ++ [30])
  ++ (lit "007N " ++ [31] ++ lit "agnd" ++ [31] ++ lit "01131918517" ++ [30])
  ++ (lit "007N " ++ [31] ++ lit "agnd" ++ [31] ++ lit "01095607278" ++ [30])
  ++ (lit "007N " ++ [31] ++ lit "agnd" ++ [31] ++ lit "01022736213" ++ [30])
  ++ (lit "007N " ++ [31] ++ lit "agnd" ++ [31] ++ lit "01032060956" ++ [30])
  ++ (lit "007N " ++ [31] ++ lit "aswd" ++ [31] ++ lit "04021455-2" ++ [31] ++ lit "vzg" ++ [30])
  ++ (lit "007N " ++ [31] ++ lit "agnd" ++ [31] ++ lit "01014927390" ++ [30])
  ++ (lit "007N " ++ [31] ++ lit "apnd" ++ [31] ++ lit "01014927390" ++ [31] ++ lit "vzg" ++ [30])
  ++ (lit "007N " ++ [31] ++ lit "agnd" ++ [31] ++ lit "0101488358X" ++ [30])
  ++ (lit "007N " ++ [31] ++ lit "apnd" ++ [31] ++ lit "0101488358X" ++ [31] ++ lit "vzg" ++ [30])
  ++ (lit "007N " ++ [31] ++ lit "agnd" ++ [31] ++ lit "0185848826" ++ [30])
  ++ (lit "007N " ++ [31] ++ lit "apnd" ++ [31] ++ lit "0185848826" ++ [31] ++ lit "vzg" ++ [30])
  ++ (lit "007N " ++ [31] ++ lit "agnd" ++ [31] ++ lit "0185808069" ++ [30])
  ++ (lit "007N " ++ [31] ++ lit "apnd" ++ [31] ++ lit "0185808069" ++ [31] ++ lit "vzg" ++ [30])
  ++ (lit "007N " ++ [31] ++ lit "apnd" ++ [31] ++ lit "0118540238" ++ [31] ++ lit "vzg" ++ [30])
  ++ (lit "007N " ++ [31] ++ lit "apnd" ++ [31] ++ lit "01014123208" ++ [30])
  ++ (lit "008A " ++ [31] ++ lit "as" ++ [31] ++ lit "aa" ++ [31] ++ lit "af" ++ [31] ++ lit "az" ++ [31] ++ lit "ah" ++ [31] ++ lit "al" ++ [31] ++ lit "ad" ++ [30])
  ++ (lit "008B " ++ [31] ++ lit "av" ++ [31] ++ lit "aw" ++ [31] ++ lit "ak" ++ [31] ++ lit "am" ++ [31] ++ lit "ae" ++ [31] ++ lit "az" ++ [31] ++ lit "ao" ++ [30])
  ++ (lit "010E " ++ [31] ++ lit "erda" ++ [30])
  ++ (lit "022R " ++ [31] ++ lit "91085150313" ++ [31] ++ lit "7Tu3" ++ [31] ++ lit "Vwip" ++ [31] ++ lit "Agnd" ++ [31] ++ lit "01085150313" ++ [31] ++ lit "tExlibris" ++ [31] ++ lit "gGoethe, Johann Wolfgang von" ++ [31] ++ lit "n01" ++ [31] ++ lit "4rela" ++ [30])
  ++ (lit "022R " ++ [31] ++ lit "91085154025" ++ [31] ++ lit "7Tu3" ++ [31] ++ lit "Vwip" ++ [31] ++ lit "Agnd" ++ [31] ++ lit "01085154025" ++ [31] ++ lit "tExlibris" ++ [31] ++ lit "gGoethe, Johann Wolfgang von" ++ [31] ++ lit "n02" ++ [31] ++ lit "4rela" ++ [30])
  ++ (lit "028@ " ++ [31] ++ lit "dJohann Wolfgang" ++ [31] ++ lit "aGoethe" ++ [31] ++ lit "vADB" ++ [30])
  ++ (lit "028@ " ++ [31] ++ lit "dJohan Wolfgang" ++ [31] ++ lit "cvon" ++ [31] ++ lit "aGoethe" ++ [30])
  ++ (lit "028@ " ++ [31] ++ lit "dJohan Wolphgang" ++ [31] ++ lit "aGoethe" ++ [30])
  ++ (lit "028@ " ++ [31] ++ lit "dJohan W." ++ [31] ++ lit "cvon" ++ [31] ++ lit "aGoethe" ++ [30])
  ++ (lit "028@ " ++ [31] ++ lit "dJoh. Wolfg." ++ [31] ++ lit "cv." ++ [31] ++ lit "aGoethe" ++ [30])
  ++ (lit "028@ " ++ [31] ++ lit "dJ. Wolfgang" ++ [31] ++ lit "aGoethe" ++ [30])
  ++ (lit "028@ " ++ [31] ++ lit "dJ. W." ++ [31] ++ lit "cv." ++ [31] ++ lit "aGoethe" ++ [30])
  ++ (lit "028@ " ++ [31] ++ lit "dJ. W." ++ [31] ++ lit "aGoethe" ++ [30])
  ++ (lit "028@ " ++ [31] ++ lit "dJan Wolfgang" ++ [31] ++ lit "aGoethe" ++ [30])
  ++ (lit "028@ " ++ [31] ++ lit "dJean Wolfgang" ++ [31] ++ lit "cvon" ++ [31] ++ lit "aGoethe" ++ [30])
  ++ (lit "028@ " ++ [31] ++ lit "dJuan Wolfgang" ++ [31] ++ lit "cvon" ++ [31] ++ lit "aGoethe" ++ [30])
  ++ (lit "028@ " ++ [31] ++ lit "dJuan Wolfgang" ++ [31] ++ lit "aGoethe" ++ [30])
  ++ (lit "028@ " ++ [31] ++ lit "dJuan W." ++ [31] ++ lit "aGoethe" ++ [30])
  ++ (lit "028@ " ++ [31] ++ lit "dJoão Wolfgang" ++ [31] ++ lit "cvon" ++ [31] ++ lit "aGoethe" ++ [30])
  ++ (lit "028@ " ++ [31] ++ lit "dIohann Wolfgang" ++ [31] ++ lit "aGoethe" ++ [30])
  ++ (lit "028@ " ++ [31] ++ lit "dIohan Wolphgang" ++ [31] ++ lit "aGoethe" ++ [30])
  ++ (lit "028@ " ++ [31] ++ lit "dIoannes W." ++ [31] ++ lit "aGoethe" ++ [30])
  ++ (lit "028@ " ++ [31] ++ lit "dI. W." ++ [31] ++ lit "aGoethe" ++ [30])
  ++ (lit "028@ " ++ [31] ++ lit "dWolfgango" ++ [31] ++ lit "aGoethe" ++ [30])
  ++ (lit "028@ " ++ [31] ++ lit "dWolfango" ++ [31] ++ lit "aGoethe" ++ [30])
  ++ (lit "028@ " ++ [31] ++ lit "dW." ++ [31] ++ lit "cvon" ++ [31] ++ lit "aGoethe" ++ [30])
  ++ (lit "028@ " ++ [31] ++ lit "dVolfgango" ++ [31] ++ lit "aGoethe" ++ [30])
  ++ (lit "028@ " ++ [31] ++ lit "dVolfango" ++ [31] ++ lit "aGoethe" ++ [30])
  ++ (lit "028@ " ++ [31] ++ lit "dGiov. L." ++ [31] ++ lit "aGoethe" ++ [30])
  ++ (lit "028@ " ++ [31] ++ lit "dG. L." ++ [31] ++ lit "aGoethe" ++ [30])
  ++ (lit "028@ " ++ [31] ++ lit "PGoethe" ++ [30])
  ++ (lit "028@ " ++ [31] ++ lit "dJohann Wolfgang" ++ [31] ++ lit "aVon Goethe" ++ [30])
  ++ (lit "028@ " ++ [31] ++ lit "PGoethius" ++ [30])
  ++ (lit "028@ " ++ [31] ++ lit "dJohann Wolfgang" ++ [31] ++ lit "cvon" ++ [31] ++ lit "aGöthe" ++ [31] ++ lit "4navo" ++ [30])
  ++ (lit "028@ " ++ [31] ++ lit "dJohann W. êvonë" ++ [31] ++ lit "aGöthe" ++ [30])
  ++ (lit "028@ " ++ [31] ++ lit "dJan Wolfgang" ++ [31] ++ lit "aGöthe" ++ [30])
  ++ (lit "028@ " ++ [31] ++ lit "dJan Wolfang" ++ [31] ++ lit "aGöthe" ++ [30])
  ++ (lit "028@ " ++ [31] ++ lit "dJ. W." ++ [31] ++ lit "cvon" ++ [31] ++ lit "aGöthe" ++ [30])
  ++ (lit "028@ " ++ [31] ++ lit "dGiov. Volfango" ++ [31] ++ lit "aGöthe" ++ [30])
  ++ (lit "028@ " ++ [31] ++ lit "PGöthe" ++ [30])
  ++ (lit "028@ " ++ [31] ++ lit "dIogann V." ++ [31] ++ lit "aGöte" ++ [30])
  ++ (lit "028@ " ++ [31] ++ lit "PGöte" ++ [30])
  ++ (lit "028@ " ++ [31] ++ lit "dIohan V." ++ [31] ++ lit "cp'on" ++ [31] ++ lit "aGoete" ++ [30])
  ++ (lit "028@ " ++ [31] ++ lit "dIohan Volp'gang" ++ [31] ++ lit "aGoet'e" ++ [30])
  ++ (lit "028@ " ++ [31] ++ lit "PGoet'e" ++ [30])
  ++ (lit "028@ " ++ [31] ++ lit "PGoe te" ++ [30])
  ++ (lit "028@ " ++ [31] ++ lit "PGêôt'ê" ++ [30])
  ++ (lit "028@ " ++ [31] ++ lit "dJochan Volfgang" ++ [31] ++ lit "aG'ote" ++ [30])
  ++ (lit "028@ " ++ [31] ++ lit "dYohan Volfgang" ++ [31] ++ lit "aGete" ++ [30])
  ++ (lit "028@ " ++ [31] ++ lit "dV." ++ [31] ++ lit "cf." ++ [31] ++ lit "aG'ote" ++ [30])
  ++ (lit "028@ " ++ [31] ++ lit "PG'ote" ++ [30])
  ++ (lit "028@ " ++ [31] ++ lit "dJ. V." ++ [31] ++ lit "aGót" ++ [30])
  ++ (lit "028@ " ++ [31] ++ lit "PGót" ++ [30])
  ++ (lit "028@ " ++ [31] ++ lit "dI. V." ++ [31] ++ lit "aGo't" ++ [30])
  ++ (lit "028@ " ++ [31] ++ lit "PGoithios" ++ [30])
  ++ (lit "028@ " ++ [31] ++ lit "PGotenin" ++ [30])
  ++ (lit "028@ " ++ [31] ++ lit "PGejteh" ++ [30])
  ++ (lit "028@ " ++ [31] ++ lit "dJōhan Wolfgang" ++ [31] ++ lit "cfon" ++ [31] ++ lit "aGete" ++ [30])
  ++ (lit "028@ " ++ [31] ++ lit "dJohann Volʹfgang" ++ [31] ++ lit "aGete" ++ [30])
  ++ (lit "028@ " ++ [31] ++ lit "dJohans Volfgangs" ++ [31] ++ lit "aGéte" ++ [30])
  ++ (lit "028@ " ++ [31] ++ lit "dJohanas Volfgangas" ++ [31] ++ lit "aGėtė" ++ [30])
  ++ (lit "028@ " ++ [31] ++ lit "dJochan Volfgang" ++ [31] ++ lit "aGete" ++ [30])
  ++ (lit "028@ " ++ [31] ++ lit "dJogann Vol'fgang" ++ [31] ++ lit "cfon" ++ [31] ++ lit "aGete" ++ [30])
  ++ (lit "028@ " ++ [31] ++ lit "dJogann Vol'fgang êfonë" ++ [31] ++ lit "aGete" ++ [30])
  ++ (lit "028@ " ++ [31] ++ lit "dJogann-Vol'fgang" ++ [31] ++ lit "aGete" ++ [30])
  ++ (lit "028@ " ++ [31] ++ lit "dJ. V." ++ [31] ++ lit "aGete" ++ [30])
  ++ (lit "028@ " ++ [31] ++ lit "dJ.-V." ++ [31] ++ lit "aGete" ++ [30])
  ++ (lit "028@ " ++ [31] ++ lit "dIogann W." ++ [31] ++ lit "aGete" ++ [30])
  ++ (lit "028@ " ++ [31] ++ lit "dI. W." ++ [31] ++ lit "aGete" ++ [30])
  ++ (lit "028@ " ++ [31] ++ lit "dIohan Volfgang" ++ [31] ++ lit "aGete" ++ [30])
  ++ (lit "028@ " ++ [31] ++ lit "dIogann Vol'fgang" ++ [31] ++ lit "aGëte" ++ [30])
  ++ (lit "028@ " ++ [31] ++ lit "dJohann Volfgang" ++ [31] ++ lit "aGëte" ++ [30])
  ++ (lit "028@ " ++ [31] ++ lit "dIogann Vol'fgang" ++ [31] ++ lit "aGe͏̈te" ++ [30])
  ++ (lit "028@ " ++ [31] ++ lit "dI. V." ++ [31] ++ lit "aGete" ++ [30])
  ++ (lit "028@ " ++ [31] ++ lit "dI.-V." ++ [31] ++ lit "aGete" ++ [30])
  ++ (lit "028@ " ++ [31] ++ lit "dYohan Wolfgang" ++ [31] ++ lit "aGete" ++ [30])
  ++ (lit "028@ " ++ [31] ++ lit "dYôhân Wôlfgang" ++ [31] ++ lit "cfôn" ++ [31] ++ lit "aGete" ++ [30])
  ++ (lit "028@ " ++ [31] ++ lit "dYôhan Wolfgang" ++ [31] ++ lit "aGête" ++ [30])
  ++ (lit "028@ " ++ [31] ++ lit "dYohann Volfqanq" ++ [31] ++ lit "aGete" ++ [30])
  ++ (lit "028@ " ++ [31] ++ lit "dYogann Volʹfgang" ++ [31] ++ lit "aGete" ++ [30])
  ++ (lit "028@ " ++ [31] ++ lit "dY. W." ++ [31] ++ lit "aGete" ++ [30])
  ++ (lit "028@ " ++ [31] ++ lit "dY. W." ++ [31] ++ lit "aGêtê" ++ [30])
  ++ (lit "028@ " ++ [31] ++ lit "dVolʹfgang" ++ [31] ++ lit "aGete" ++ [30])
  ++ (lit "028@ " ++ [31] ++ lit "dV." ++ [31] ++ lit "aGete" ++ [30])
  ++ (lit "028@ " ++ [31] ++ lit "dEgan Vol'fgang" ++ [31] ++ lit "aGete" ++ [30])
  ++ (lit "028@ " ++ [31] ++ lit "PGete" ++ [30])
  ++ (lit "028@ " ++ [31] ++ lit "PGēte" ++ [30])
  ++ (lit "028@ " ++ [31] ++ lit "PGě'ṭe" ++ [30])
  ++ (lit "028@ " ++ [31] ++ lit "dG." ++ [31] ++ lit "aGette" ++ [30])
  ++ (lit "028@ " ++ [31] ++ lit "dYuehan Wofugang" ++ [31] ++ lit "aGede" ++ [30])
  ++ (lit "028@ " ++ [31] ++ lit "PGede" ++ [30])
  ++ (lit "028@ " ++ [31] ++ lit "PGe de" ++ [30])
  ++ (lit "028@ " ++ [31] ++ lit "dYohan Ṿolfgang" ++ [31] ++ lit "cfon" ++ [31] ++ lit "aGeteh" ++ [30])
  ++ (lit "028@ " ++ [31] ++ lit "dYūhān Wulfgāng" ++ [31] ++ lit "cfun" ++ [31] ++ lit "aGūta" ++ [30])
  ++ (lit "028@ " ++ [31] ++ lit "dYūhān Wulfgāng" ++ [31] ++ lit "cfūn" ++ [31] ++ lit "aGūta" ++ [30])
  ++ (lit "028@ " ++ [31] ++ lit "dYūhān Wulfǧānǧ" ++ [31] ++ lit "cfūn" ++ [31] ++ lit "aǦūta" ++ [30])
  ++ (lit "028@ " ++ [31] ++ lit "PGūta" ++ [30])
  ++ (lit "028@ " ++ [31] ++ lit "PǦīta" ++ [30])
  ++ (lit "028@ " ++ [31] ++ lit "PǦītā" ++ [30])
  ++ (lit "028@ " ++ [31] ++ lit "PǦītah" ++ [30])
  ++ (lit "028@ " ++ [31] ++ lit "PǦītih" ++ [30])
  ++ (lit "028@ " ++ [31] ++ lit "dJohan Wolphgang" ++ [31] ++ lit "aGiote" ++ [30])
  ++ (lit "028@ " ++ [31] ++ lit "dJ. W." ++ [31] ++ lit "aGiote" ++ [30])
  ++ (lit "028@ " ++ [31] ++ lit "dJochan Volfgang" ++ [31] ++ lit "aGǐote" ++ [30])
  ++ (lit "028@ " ++ [31] ++ lit "dJ. V." ++ [31] ++ lit "aGiote" ++ [30])
  ++ (lit "028@ " ++ [31] ++ lit "dYūhān Fūlfġānḡ" ++ [31] ++ lit "aĠūta" ++ [30])
  ++ (lit "028@ " ++ [31] ++ lit "dYūhān Fūlfġānḡ" ++ [31] ++ lit "aĠūtah" ++ [30])
  ++ (lit "028@ " ++ [31] ++ lit "dYūhān Vūlfġanġ" ++ [31] ++ lit "cfūn" ++ [31] ++ lit "aĠūtih" ++ [30])
  ++ (lit "028@ " ++ [31] ++ lit "dYūhān Fūlfġānḡ" ++ [31] ++ lit "aĠūtih" ++ [30])
  ++ (lit "028@ " ++ [31] ++ lit "dYohan Welfgang" ++ [31] ++ lit "cfon" ++ [31] ++ lit "aGoytä" ++ [30])
  ++ (lit "028@ " ++ [31] ++ lit "dJohān Bholphgãā" ++ [31] ++ lit "aGyote" ++ [30])
  ++ (lit "028@ " ++ [31] ++ lit "dYohan Wolfgang" ++ [31] ++ lit "aGyot'e" ++ [30])
  ++ (lit "028@ " ++ [31] ++ lit "dYohan Volfgang" ++ [31] ++ lit "aGyot'e" ++ [30])
  ++ (lit "028@ " ++ [31] ++ lit "dYŚuhŚan VŚulf·gan·g fŚun" ++ [31] ++ lit "aGŚutih" ++ [30])
  ++ (lit "028@ " ++ [31] ++ lit "dGiochan Bolphnkannk" ++ [31] ++ lit "cphon" ++ [31] ++ lit "aGkaite" ++ [30])
  ++ (lit "028@ " ++ [31] ++ lit "dGiochan Bolphnkannk êphonë" ++ [31] ++ lit "aGkaite" ++ [30])
  ++ (lit "028@ " ++ [31] ++ lit "dGiochan B." ++ [31] ++ lit "cphon" ++ [31] ++ lit "aGkaite" ++ [30])
  ++ (lit "028@ " ++ [31] ++ lit "dIōann Mpolphgang" ++ [31] ++ lit "aGkaite" ++ [30])
  ++ (lit "028@ " ++ [31] ++ lit "PGkaite" ++ [30])
  ++ (lit "028@ " ++ [31] ++ lit "dYohan Polp'ŭgang" ++ [31] ++ lit "cp'on" ++ [31] ++ lit "aKoet'e" ++ [30])
  ++ (lit "028@ " ++ [31] ++ lit "PKoet'e" ++ [30])
  ++ (lit "028@ " ++ [31] ++ lit "dVolfkank" ++ [31] ++ lit "aKêôt'ê" ++ [30])
  ++ (lit "028@ " ++ [31] ++ lit "PKēōthē" ++ [30])
  ++ (lit "028@ " ++ [31] ++ lit "dJohann Volfgang" ++ [31] ++ lit "aKote" ++ [30])
  ++ (lit "028@ " ++ [31] ++ lit "dJochann Volfgang" ++ [31] ++ lit "aKote" ++ [30])
  ++ (lit "028@ " ++ [31] ++ lit "dJ. V." ++ [31] ++ lit "aKote" ++ [30])
  ++ (lit "028@ " ++ [31] ++ lit "dV." ++ [31] ++ lit "aKote" ++ [30])
  ++ (lit "028@ " ++ [31] ++ lit "dJohann-Vol'fhanh" ++ [31] ++ lit "aHete" ++ [30])
  ++ (lit "028@ " ++ [31] ++ lit "dE͏̈han Vol'fhanh" ++ [31] ++ lit "aHe͏̈te" ++ [30])
  ++ (lit "028@ " ++ [31] ++ lit "d&Euml;han Vol'fhanh" ++ [31] ++ lit "aHëte" ++ [30])
  ++ (lit "028@ " ++ [31] ++ lit "dIohann Volfqanq" ++ [31] ++ lit "aHöte" ++ [30])
  ++ (lit "028@ " ++ [31] ++ lit "PYo han Bol peu gang pon Goe te" ++ [30])
  ++ (lit "028@ " ++ [31] ++ lit "PYohan-Bolpeugang-pon-Goete" ++ [30])
  ++ (lit "028@ " ++ [31] ++ lit "PYue han Wo fu gang Ge de" ++ [30])
  ++ (lit "028@ " ++ [31] ++ lit "PYuehan-Wofugang-Gede" ++ [30])
  ++ (lit "028@ " ++ [31] ++ lit "dYohan Wolfgang" ++ [31] ++ lit "aGyote" ++ [31] ++ lit "vuigur." ++ [30])
  ++ (lit "028@ " ++ [31] ++ lit "dJohann Wolfgang" ++ [31] ++ lit "cv." ++ [31] ++ lit "aGoethe" ++ [30])
  ++ (lit "028@ " ++ [31] ++ lit "dJohann W." ++ [31] ++ lit "cvon" ++ [31] ++ lit "aGoethe" ++ [30])
  ++ (lit "028@ " ++ [31] ++ lit "dJohann W." ++ [31] ++ lit "aGoethe" ++ [30])
  ++ (lit "028@ " ++ [31] ++ lit "dJ. W." ++ [31] ++ lit "cvon" ++ [31] ++ lit "aGoethe" ++ [30])
  ++ (lit "028@ " ++ [31] ++ lit "dWolfgang" ++ [31] ++ lit "cvon" ++ [31] ++ lit "aGoethe" ++ [30])
  ++ (lit "028@ " ++ [31] ++ lit "dWolfgang" ++ [31] ++ lit "aGoethe" ++ [30])
  ++ (lit "028@ " ++ [31] ++ lit "dJohan Volfgang" ++ [31] ++ lit "aGete" ++ [30])
  ++ (lit "028@ " ++ [31] ++ lit "dIogann Volʹfgang" ++ [31] ++ lit "aGete" ++ [30])
  ++ (lit "028@ " ++ [31] ++ lit "dJ.V." ++ [31] ++ lit "aGete" ++ [30])
  ++ (lit "028@ " ++ [31] ++ lit "dI.V." ++ [31] ++ lit "aGoithios" ++ [30])
  ++ (lit "028@ " ++ [31] ++ lit "dYohan Vorufugangu Fon" ++ [31] ++ lit "aGēte" ++ [30])
  ++ (lit "028@ " ++ [31] ++ lit "dYūhān Fūlfġānġ fūn" ++ [31] ++ lit "aĠūtih" ++ [30])
  ++ (lit "028@ " ++ [31] ++ lit "PGoythe" ++ [30])
  ++ (lit "028@ " ++ [31] ++ lit "dJ.W." ++ [31] ++ lit "cvon" ++ [31] ++ lit "aGoethe" ++ [30])
  ++ (lit "028@ " ++ [31] ++ lit "dJ.W." ++ [31] ++ lit "aGoethe" ++ [30])
  ++ (lit "028@ " ++ [31] ++ lit "T01" ++ [31] ++ lit "UCyrl" ++ [31] ++ lit "Luzb" ++ [31] ++ lit "dЙоҳанн Волфганг" ++ [31] ++ lit "aГёте" ++ [30])
  ++ (lit "028@ " ++ [31] ++ lit "T01" ++ [31] ++ lit "UHans" ++ [31] ++ lit "P歌德" ++ [31] ++ lit "5DE-576" ++ [30])
  ++ (lit "028@ " ++ [31] ++ lit "T01" ++ [31] ++ lit "UHant" ++ [31] ++ lit "P約翰・沃爾夫岡・馮・歌德" ++ [31] ++ lit "5DE-576" ++ [30])
  ++ (lit "028@ " ++ [31] ++ lit "T01" ++ [31] ++ lit "UHans" ++ [31] ++ lit "P约翰・沃尔夫冈・冯・歌德" ++ [31] ++ lit "5DE-576" ++ [30])
  ++ (lit "028@ " ++ [31] ++ lit "T01" ++ [31] ++ lit "UJpan" ++ [31] ++ lit "dヨハン・ヴォルフガング・フォン" ++ [31] ++ lit "aゲーテ" ++ [31] ++ lit "5DE-576" ++ [30])
  ++ (lit "028@ " ++ [31] ++ lit "T01" ++ [31] ++ lit "UHebr" ++ [31] ++ lit "dיוהן וולפגנג פון" ++ [31] ++ lit "aגתה" ++ [30])
  ++ (lit "028@ " ++ [31] ++ lit "T01" ++ [31] ++ lit "UHans" ++ [31] ++ lit "P歌德" ++ [30])
  ++ (lit "028@ " ++ [31] ++ lit "T01" ++ [31] ++ lit "UJpan" ++ [31] ++ lit "dヨハン・ヴォルフガング・フォン" ++ [31] ++ lit "aゲーテ" ++ [30])
  ++ (lit "028@ " ++ [31] ++ lit "T01" ++ [31] ++ lit "UGeor" ++ [31] ++ lit "dიოჰან ვოლფგანგ ფონ" ++ [31] ++ lit "aგოეთე" ++ [30])
  ++ (lit "028A " ++ [31] ++ lit "dJohann Wolfgang" ++ [31] ++ lit "cvon" ++ [31] ++ lit "aGoethe" ++ [30])
  ++ (lit "028P " ++ [31] ++ lit "dJohann Wolfgang von" ++ [31] ++ lit "aGoethe" ++ [31] ++ lit "SDLC" ++ [31] ++ lit "0n 79003362" ++ [31] ++ lit "2naf" ++ [31] ++ lit "v1749-1832" ++ [30])
  ++ (lit "028P " ++ [31] ++ lit "T01" ++ [31] ++ lit "UArab" ++ [31] ++ lit "Luig" ++ [31] ++ lit "dيوھان ۋولڧگاڭ" ++ [31] ++ lit "aگيوتې" ++ [30])
  ++ (lit "028P " ++ [31] ++ lit "T01" ++ [31] ++ lit "UKore" ++ [31] ++ lit "d요한 볼프강 폰" ++ [31] ++ lit "a괴테" ++ [31] ++ lit "5DE-576" ++ [30])
  ++ (lit "028P " ++ [31] ++ lit "T01" ++ [31] ++ lit "UHans" ++ [31] ++ lit "d约翰·沃尔夫冈·" ++ [31] ++ lit "a歌德" ++ [30])
  ++ (lit "028P " ++ [31] ++ lit "T01" ++ [31] ++ lit "UArab" ++ [31] ++ lit "dیوهان ولفگانگ" ++ [31] ++ lit "cفون" ++ [31] ++ lit "aگوته" ++ [30])
  ++ (lit "028P " ++ [31] ++ lit "T01" ++ [31] ++ lit "UCyrl" ++ [31] ++ lit "Luzb" ++ [31] ++ lit "dЙоҳанн Волфганг" ++ [31] ++ lit "aГёте" ++ [31] ++ lit "vVorlage" ++ [30])
  ++ (lit "028R " ++ [31] ++ lit "9118695940" ++ [31] ++ lit "7Tp1" ++ [31] ++ lit "Vpiz" ++ [31] ++ lit "Agnd" ++ [31] ++ lit "0118695940" ++ [31] ++ lit "E1710" ++ [31] ++ lit "G1782" ++ [31] ++ lit "dJohann Caspar" ++ [31] ++ lit "aGoethe" ++ [31] ++ lit "4bezf" ++ [31] ++ lit "vVater" ++ [30])
  ++ (lit "028R " ++ [31] ++ lit "9118540246" ++ [31] ++ lit "7Tp1" ++ [31] ++ lit "Vpiz" ++ [31] ++ lit "Agnd" ++ [31] ++ lit "0118540246" ++ [31] ++ lit "E1731" ++ [31] ++ lit "G1808" ++ [31] ++ lit "dKatharina Elisabeth" ++ [31] ++ lit "aGoethe" ++ [31] ++ lit "4bezf" ++ [31] ++ lit "vMutter" ++ [30])
  ++ (lit "028R " ++ [31] ++ lit "911871791X" ++ [31] ++ lit "7Tp1" ++ [31] ++ lit "Vpiz" ++ [31] ++ lit "Agnd" ++ [31] ++ lit "011871791X" ++ [31] ++ lit "E1750" ++ [31] ++ lit "G1777" ++ [31] ++ lit "dCornelia" ++ [31] ++ lit "aGoethe" ++ [31] ++ lit "4bezf" ++ [31] ++ lit "vSchwester" ++ [30])
  ++ (lit "028R " ++ [31] ++ lit "9118795163" ++ [31] ++ lit "7Tp1" ++ [31] ++ lit "Vpiz" ++ [31] ++ lit "Agnd" ++ [31] ++ lit "0118795163" ++ [31] ++ lit "E1739" ++ [31] ++ lit "G1799" ++ [31] ++ lit "dJohann Georg" ++ [31] ++ lit "aSchlosser" ++ [31] ++ lit "4bezf" ++ [31] ++ lit "vSchwager" ++ [30])
  ++ (lit "028R " ++ [31] ++ lit "9118628011" ++ [31] ++ lit "7Tp1" ++ [31] ++ lit "Vpiz" ++ [31] ++ lit "Agnd" ++ [31] ++ lit "0118628011" ++ [31] ++ lit "E1765" ++ [31] ++ lit "G1816" ++ [31] ++ lit "dChristiane" ++ [31] ++ lit "aGoethe" ++ [31] ++ lit "cvon" ++ [31] ++ lit "4bezf" ++ [31] ++ lit "vEhefrau" ++ [30])
  ++ (lit "028R " ++ [31] ++ lit "911854022X" ++ [31] ++ lit "7Tp1" ++ [31] ++ lit "Vpiz" ++ [31] ++ lit "Agnd" ++ [31] ++ lit "011854022X" ++ [31] ++ lit "E1789" ++ [31] ++ lit "G1830" ++ [31] ++ lit "dAugust" ++ [31] ++ lit "aGoethe" ++ [31] ++ lit "cvon" ++ [31] ++ lit "4bezf" ++ [31] ++ lit "vSohn" ++ [30])
  ++ (lit "028R " ++ [31] ++ lit "9118540254" ++ [31] ++ lit "7Tp1" ++ [31] ++ lit "Vpiz" ++ [31] ++ lit "Agnd" ++ [31] ++ lit "0118540254" ++ [31] ++ lit "E1796" ++ [31] ++ lit "G1872" ++ [31] ++ lit "dOttilie" ++ [31] ++ lit "aGoethe" ++ [31] ++ lit "cvon" ++ [31] ++ lit "4bezf" ++ [31] ++ lit "vSchwiegertochter" ++ [30])
  ++ (lit "028R " ++ [31] ++ lit "911687256X" ++ [31] ++ lit "7Tp1" ++ [31] ++ lit "Vpiz" ++ [31] ++ lit "Agnd" ++ [31] ++ lit "011687256X" ++ [31] ++ lit "E1734" ++ [31] ++ lit "G1823" ++ [31] ++ lit "dJohanna Maria" ++ [31] ++ lit "aMelber" ++ [31] ++ lit "4bezf" ++ [31] ++ lit "vTante" ++ [30])
  ++ (lit "028R " ++ [31] ++ lit "9118617222" ++ [31] ++ lit "7Tp1" ++ [31] ++ lit "Vpiz" ++ [31] ++ lit "Agnd" ++ [31] ++ lit "0118617222" ++ [31] ++ lit "E1742" ++ [31] ++ lit "G1827" ++ [31] ++ lit "dCharlotte" ++ [31] ++ lit "aStein" ++ [31] ++ lit "cvon" ++ [31] ++ lit "4beza" ++ [31] ++ lit "vFreundin" ++ [30])
  ++ (lit "028R " ++ [31] ++ lit "9118633252" ++ [31] ++ lit "7Tp1" ++ [31] ++ lit "Vpiz" ++ [31] ++ lit "Agnd" ++ [31] ++ lit "0118633252" ++ [31] ++ lit "E1784" ++ [31] ++ lit "G1860" ++ [31] ++ lit "dMarianne" ++ [31] ++ lit "aWillemer" ++ [31] ++ lit "cvon" ++ [31] ++ lit "4beza" ++ [31] ++ lit "vFreundin" ++ [30])
  ++ (lit "028R " ++ [31] ++ lit "9118638076" ++ [31] ++ lit "7Tp1" ++ [31] ++ lit "Vpiz" ++ [31] ++ lit "Agnd" ++ [31] ++ lit "0118638076" ++ [31] ++ lit "E1753" ++ [31] ++ lit "G1828" ++ [31] ++ lit "dCharlotte" ++ [31] ++ lit "aBuff" ++ [31] ++ lit "4beza" ++ [31] ++ lit "vFreundin" ++ [30])
  ++ (lit "028R " ++ [31] ++ lit "9119277387" ++ [31] ++ lit "7Tp1" ++ [31] ++ lit "Vpiz" ++ [31] ++ lit "Agnd" ++ [31] ++ lit "0119277387" ++ [31] ++ lit "E1789" ++ [31] ++ lit "G1865" ++ [31] ++ lit "dMinna" ++ [31] ++ lit "aHerzlieb" ++ [31] ++ lit "4beza" ++ [31] ++ lit "vFreundin" ++ [30])
  ++ (lit "028R " ++ [31] ++ lit "9118727907" ++ [31] ++ lit "7Tp1" ++ [31] ++ lit "Vpiz" ++ [31] ++ lit "Agnd" ++ [31] ++ lit "0118727907" ++ [31] ++ lit "E1804" ++ [31] ++ lit "G1899" ++ [31] ++ lit "dUlrike" ++ [31] ++ lit "aLevetzow" ++ [31] ++ lit "cvon" ++ [31] ++ lit "4beza" ++ [31] ++ lit "vletzte Freundin 1821-1823 (»Marienbader Elegie«)" ++ [30])
  ++ (lit "028R " ++ [31] ++ lit "911856014X" ++ [31] ++ lit "7Tp1" ++ [31] ++ lit "Vpik" ++ [31] ++ lit "Agnd" ++ [31] ++ lit "011856014X" ++ [31] ++ lit "E1757" ++ [31] ++ lit "G1828" ++ [31] ++ lit "PKarl August" ++ [31] ++ lit "lSachsen-Weimar-Eisenach, Großherzog" ++ [31] ++ lit "4bezb" ++ [30])
  ++ (lit "028R " ++ [31] ++ lit "9118607626" ++ [31] ++ lit "7Tp1" ++ [31] ++ lit "Vpiz" ++ [31] ++ lit "Agnd" ++ [31] ++ lit "0118607626" ++ [31] ++ lit "E1759" ++ [31] ++ lit "G1805" ++ [31] ++ lit "dFriedrich" ++ [31] ++ lit "aSchiller" ++ [31] ++ lit "4beza" ++ [30])
  ++ (lit "032T " ++ [31] ++ lit "am" ++ [30])
  ++ (lit "041R " ++ [31] ++ lit "9040533093" ++ [31] ++ lit "7Tsz" ++ [31] ++ lit "Vsaz" ++ [31] ++ lit "Agnd" ++ [31] ++ lit "04053309-8" ++ [31] ++ lit "aSchriftsteller" ++ [31] ++ lit "4berc" ++ [30])
  ++ (lit "041R " ++ [31] ++ lit "9041763106" ++ [31] ++ lit "7Ts1" ++ [31] ++ lit "Vsaz" ++ [31] ++ lit "Agnd" ++ [31] ++ lit "04176310-5" ++ [31] ++ lit "aPublizist" ++ [31] ++ lit "4beru" ++ [30])
  ++ (lit "041R " ++ [31] ++ lit "9040465179" ++ [31] ++ lit "7Ts1" ++ [31] ++ lit "Vsaz" ++ [31] ++ lit "Agnd" ++ [31] ++ lit "04046517-2" ++ [31] ++ lit "aPolitiker" ++ [31] ++ lit "4beru" ++ [30])
  ++ (lit "041R " ++ [31] ++ lit "9040290506" ++ [31] ++ lit "7Ts1" ++ [31] ++ lit "Vsaz" ++ [31] ++ lit "Agnd" ++ [31] ++ lit "04029050-5" ++ [31] ++ lit "aJurist" ++ [31] ++ lit "4beru" ++ [30])
  ++ (lit "041R " ++ [31] ++ lit "904041423X" ++ [31] ++ lit "7Ts1" ++ [31] ++ lit "Vsaz" ++ [31] ++ lit "Agnd" ++ [31] ++ lit "04041423-1" ++ [31] ++ lit "aNaturwissenschaftler" ++ [31] ++ lit "4beru" ++ [30])
  ++ (lit "041R " ++ [31] ++ lit "9041850440" ++ [31] ++ lit "7Ts1" ++ [31] ++ lit "Vsaz" ++ [31] ++ lit "Agnd" ++ [31] ++ lit "04185044-0" ++ [31] ++ lit "aTheaterintendant" ++ [31] ++ lit "4beru" ++ [30])
  ++ (lit "041R " ++ [31] ++ lit "9040372154" ++ [31] ++ lit "7Ts1" ++ [31] ++ lit "Vsaz" ++ [31] ++ lit "Agnd" ++ [31] ++ lit "04037215-7" ++ [31] ++ lit "aMaler" ++ [31] ++ lit "4beru" ++ [30])
  ++ (lit "041R " ++ [31] ++ lit "9042003458" ++ [31] ++ lit "7Ts1" ++ [31] ++ lit "Vsaz" ++ [31] ++ lit "Agnd" ++ [31] ++ lit "04200345-3" ++ [31] ++ lit "aZeichner" ++ [31] ++ lit "4beru" ++ [30])
  ++ (lit "042A " ++ [31] ++ lit "a12.2p" ++ [31] ++ lit "a16.5p" ++ [31] ++ lit "a15.1p" ++ [31] ++ lit "a13.4p" ++ [31] ++ lit "a7.14p" ++ [31] ++ lit "a18p" ++ [30])
  ++ (lit "042B " ++ [31] ++ lit "aXA-DE" ++ [30])
  ++ (lit "042C " ++ [31] ++ lit "ager" ++ [30])
  ++ (lit "047A/03 " ++ [31] ++ lit "eDE-101" ++ [30])
  ++ (lit "047A/03 " ++ [31] ++ lit "rDE-101" ++ [30])
  ++ (lit "047C " ++ [31] ++ lit "Spnd" ++ [31] ++ lit "ia" ++ [31] ++ lit "aGoethe, Johann Wolfgang /von" ++ [31] ++ lit "0118540238" ++ [30])
  ++ (lit "047C " ++ [31] ++ lit "Spnd" ++ [31] ++ lit "ia" ++ [31] ++ lit "aGoethe, Johann W. /von" ++ [31] ++ lit "0185808069" ++ [30])
  ++ (lit "047C " ++ [31] ++ lit "Spnd" ++ [31] ++ lit "ia" ++ [31] ++ lit "aGoethe, Johann W." ++ [31] ++ lit "0185848826" ++ [30])
  ++ (lit "047C " ++ [31] ++ lit "Spnd" ++ [31] ++ lit "ia" ++ [31] ++ lit "aGoethe, Johann Wolfgang" ++ [31] ++ lit "0101488358X" ++ [30])
  ++ (lit "047C " ++ [31] ++ lit "Spnd" ++ [31] ++ lit "ia" ++ [31] ++ lit "aGoethe, Johann Wolfgang von" ++ [31] ++ lit "01014927390" ++ [30])
  ++ (lit "050C " ++ [31] ++ lit "aBearbeitungssperre (Top500) - Änderungswünsche an DNB" ++ [30])
  ++ (lit "050C " ++ [31] ++ lit "aNDSBIO" ++ [30])
  ++ (lit "050C " ++ [31] ++ lit "aVD-17" ++ [30])
  ++ (lit "050C " ++ [31] ++ lit "a7" ++ [30])
  ++ (lit "050C " ++ [31] ++ lit "a12" ++ [30])
  ++ (lit "050C " ++ [31] ++ lit "a384" ++ [30])
  ++ (lit "050C " ++ [31] ++ lit "aSWB" ++ [30])
  ++ (lit "050C " ++ [31] ++ lit "aOENAK" ++ [30])
  ++ (lit "050C " ++ [31] ++ lit "aBuchbesitz: HAAB Weimar" ++ [30])
  ++ (lit "050C " ++ [31] ++ lit "aQuelle: DNB-Normdaten (Info DNB: Deutschland (XA-DE) Sprache(n) Deutsch (ger) Geografischer Bezug Geburtsort: Frankfurt am Main Sterbeort: Weimar Beruf(e) Schriftsteller Publizist Politiker Jurist Naturwissenschaftler Theaterintendant Maler Zeichner)" ++ [30])
  ++ (lit "050D " ++ [31] ++ lit "aLaut dem Buch '""Nachtwachen"" von Bonaventura alias J. W. v. Goethe' von Lothar Baus ist Goethe möglicher Verf. der ""Nachtwachen""." ++ [30])
  ++ (lit "050E " ++ [31] ++ lit "aADB" ++ [31] ++ lit "bStand: 31.08.2015" ++ [31] ++ lit "uhttp://www.deutsche-biographie.de/ppn118540238.html?anchor=adb" ++ [30])
  ++ (lit "050E " ++ [31] ++ lit "aWikipedia" ++ [31] ++ lit "bStand: 04.06.2021" ++ [31] ++ lit "uhttps://de.wikipedia.org/w/index.php?title=Johann_Wolfgang_von_Goethe&oldid=212577860" ++ [30])
  ++ (lit "050E " ++ [31] ++ lit "aM" ++ [30])
  ++ (lit "050E " ++ [31] ++ lit "aB 1986" ++ [30])
  ++ (lit "050E " ++ [31] ++ lit "aLCAuth" ++ [30])
  ++ (lit "050E " ++ [31] ++ lit "aKosch Lit." ++ [30])
  ++ (lit "050E " ++ [31] ++ lit "aDbA" ++ [30])
  ++ (lit "050E " ++ [31] ++ lit "aProvenienzmerkmal" ++ [31] ++ lit "bExlibris" ++ [30])
  ++ (lit "050E " ++ [31] ++ lit "aProvenienzmerkmal" ++ [31] ++ lit "bAutogramm" ++ [30])
  ++ (lit "050G " ++ [31] ++ lit "bStaatsmann, Geheimrat" ++ [30])
  ++ (lit "060R " ++ [31] ++ lit "a28.08.1749" ++ [31] ++ lit "b22.03.1832" ++ [31] ++ lit "4datx" ++ [30])
  ++ (lit "060R " ++ [31] ++ lit "a1749" ++ [31] ++ lit "b1832" ++ [31] ++ lit "4datl" ++ [30])
  ++ (lit "065R " ++ [31] ++ lit "9040181189" ++ [31] ++ lit "7Tg1" ++ [31] ++ lit "Vgik" ++ [31] ++ lit "Agnd" ++ [31] ++ lit "04018118-2" ++ [31] ++ lit "aFrankfurt am Main" ++ [31] ++ lit "4ortg" ++ [30])
  ++ (lit "065R " ++ [31] ++ lit "9040651053" ++ [31] ++ lit "7Tg1" ++ [31] ++ lit "Vgik" ++ [31] ++ lit "Agnd" ++ [31] ++ lit "04065105-8" ++ [31] ++ lit "aWeimar" ++ [31] ++ lit "4orts" ++ [30])
  ++ (lit "065R " ++ [31] ++ lit "9040651053" ++ [31] ++ lit "7Tg1" ++ [31] ++ lit "Vgik" ++ [31] ++ lit "Agnd" ++ [31] ++ lit "04065105-8" ++ [31] ++ lit "aWeimar" ++ [31] ++ lit "4ortw" ++ [30])
  ++ (lit "070A/02 " ++ [31] ++ lit "SDE-Wi17FP" ++ [31] ++ lit "0CCBAA3CEF5654B98AD772651F9023DE6" ++ [30])
  ++ (lit "070A/03 " ++ [31] ++ lit "SDE-101d" ++ [31] ++ lit "0pnd:118540238" ++ [30])
  ++ (lit "070A/03 " ++ [31] ++ lit "SIDS" ++ [31] ++ lit "0110067908" ++ [30])
  ++ (lit "070A/03 " ++ [31] ++ lit "SIDS" ++ [31] ++ lit "0120055814" ++ [30])
  ++ (lit "070A/03 " ++ [31] ++ lit "SIDS" ++ [31] ++ lit "0130059035" ++ [30])
  ++ (lit "070A/03 " ++ [31] ++ lit "SIDS" ++ [31] ++ lit "0150010660" ++ [30])
  ++ [10].

(** /repo/tests/data/invalid.dat *)
Definition invalid_dat : bytes :=
  (lit "003! " ++ [31] ++ lit "0123456789X" ++ [30])
  ++ (lit "002@ " ++ [31] ++ lit "0Tp1" ++ [30])
  ++ (lit "012A/00 " ++ [31] ++ lit "a1" ++ [31] ++ lit "a2" ++ [31] ++ lit "b1" ++ [30])
  ++ [10].

(** /repo/tests/data/ada.bin *)
Definition ada_bin : bytes :=
  (lit "001A " ++ [31] ++ lit "00386:16-03-95" ++ [30] ++ lit "001B " ++ [31] ++ lit "08999:20-07-20" ++ [31] ++ lit "t13:19:49.000" ++ [30] ++ lit "001D " ++ [31] ++ lit "09999:06-04-08" ++ [30] ++ lit "001U " ++ [31] ++ lit "0utf8" ++ [30] ++ lit "001X " ++ [31] ++ lit "00" ++ [30] ++ lit "002@ " ++ [31] ++ lit "0Tp1" ++ [30] ++ lit "003@ " ++ [31] ++ lit "0119232022" ++ [30] ++ lit "003U " ++ [31] ++ lit "ahttp://d-nb.info/gnd/119232022" ++ [31] ++ lit "zhttp://d-nb.info/gnd/172642531" ++ [30] ++ lit "004B " ++ [31] ++ lit "apik" ++ [30] ++ lit "007K " ++ [31] ++ lit "agnd" ++ [31] ++ lit "0119232022" ++ [30] ++ lit "007N " ++ [31] ++ lit "agnd" ++ [31] ++ lit "0172642531" ++ [30] ++ lit "007N " ++ [31] ++ lit "apnd" ++ [31] ++ lit "0172642531" ++ [31] ++ lit "vzg" ++ [30] ++ lit "007N " ++ [31] ++ lit "apnd" ++ [31] ++ lit "0119232022" ++ [31] ++ lit "vzg" ++ [30] ++ lit "007N " ++ [31] ++ lit "aswd" ++ [31] ++ lit "04370325-2" ++ [31] ++ lit "vzg" ++ [30] ++ lit "008A " ++ [31] ++ lit "as" ++ [31] ++ lit "az" ++ [31] ++ lit "af" ++ [30] ++ lit "008B " ++ [31] ++ lit "aw" ++ [31] ++ lit "ak" ++ [31] ++ lit "av" ++ [30] ++ lit "010E " ++ [31] ++ lit "erda" ++ [30] ++ lit "028@ " ++ [31] ++ lit "dAda K." ++ [31] ++ lit "cof" ++ [31] ++ lit "aLovelace" ++ [30] ++ lit "028@ " ++ [31] ++ lit "dAugusta Ada" ++ [31] ++ lit "cof" ++ [31] ++ lit "aLovelace" ++ [30] ++ lit "028@ " ++ [31] ++ lit "dAda Augusta" ++ [31] ++ lit "cof" ++ [31] ++ lit "aLovelace" ++ [30] ++ lit "028@ " ++ [31] ++ lit "dAda" ++ [31] ++ lit "aByron" ++ [30] ++ lit "028@ " ++ [31] ++ lit "dAugusta Ada" ++ [31] ++ lit "aByron King" ++ [30] ++ lit "028@ " ++ [31] ++ lit "dAugusta Ada" ++ [31] ++ lit "aKing" ++ [30] ++ lit "028@ " ++ [31] ++ lit "dAda" ++ [31] ++ lit "aKing" ++ [30] ++ lit "028@ " ++ [31] ++ lit "dAda Augusta" ++ [31] ++ lit "aByron" ++ [31] ++ lit "4nafr" ++ [30] ++ lit "028@ " ++ [31] ++ lit "dAugusta Ada" ++ [31] ++ lit "aByron" ++ [30] ++ lit "028@ " ++ [31] ++ lit "dAda" ++ [31] ++ lit "aByron Lovelace" ++ [30] ++ lit "028@ " ++ [31] ++ lit "dAda" ++ [31] ++ lit "aLovelace" ++ [30] ++ lit "028@ " ++ [31] ++ lit "dAda King, Countess of" ++ [31] ++ lit "aLovelace" ++ [30] ++ lit "028@ " ++ [31] ++ lit "dAugusta Ada King" ++ [31] ++ lit "aLovelace" ++ [30] ++ lit "028@ " ++ [31] ++ lit "dAugusta Ada" ++ [31] ++ lit "aLovelace" ++ [30] ++ lit "028A " ++ [31] ++ lit "dAda King" ++ [31] ++ lit "cof" ++ [31] ++ lit "aLovelace" ++ [30] ++ lit "028R " ++ [31] ++ lit "9118518208" ++ [31] ++ lit "7Tp1" ++ [31] ++ lit "Vpiz" ++ [31] ++ lit "Agnd" ++ [31] ++ lit "0118518208" ++ [31] ++ lit "E1788" ++ [31] ++ lit "G1824" ++ [31] ++ lit "dGeorge Gordon Byron" ++ [31] ++ lit "aByron" ++ [31] ++ lit "lBaron" ++ [31] ++ lit "4bezf" ++ [31] ++ lit "vVater" ++ [30] ++ lit "028R " ++ [31] ++ lit "9118638130" ++ [31] ++ lit "7Tp1" ++ [31] ++ lit "Vpiz" ++ [31] ++ lit "Agnd" ++ [31] ++ lit "0118638130" ++ [31] ++ lit "E1792" ++ [31] ++ lit "G1860" ++ [31] ++ lit "dAnne Isabella Milbanke Byron" ++ [31] ++ lit "aByron" ++ [31] ++ lit "4bezf" ++ [31] ++ lit "vMutter" ++ [30] ++ lit "028R " ++ [31] ++ lit "9119389991" ++ [31] ++ lit "7Tp1" ++ [31] ++ lit "Vpiz" ++ [31] ++ lit "Agnd" ++ [31] ++ lit "0119389991" ++ [31] ++ lit "E1837" ++ [31] ++ lit "G1917" ++ [31] ++ lit "dAnne Isabella" ++ [31] ++ lit "aBlunt" ++ [31] ++ lit "4bezf" ++ [31] ++ lit "vTochter" ++ [30] ++ lit "028R " ++ [31] ++ lit "dwilliam" ++ [31] ++ lit "aking" ++ [31] ++ lit "4bezf" ++ [30] ++ lit "032T " ++ [31] ++ lit "af" ++ [30] ++ lit "041R " ++ [31] ++ lit "9042527880" ++ [31] ++ lit "7Ts1" ++ [31] ++ lit "Vsaz" ++ [31] ++ lit "Agnd" ++ [31] ++ lit "04252788-0" ++ [31] ++ lit "aMathematikerin" ++ [31] ++ lit "4berc" ++ [30] ++ lit "042A " ++ [31] ++ lit "a28p" ++ [31] ++ lit "a9.5p" ++ [30] ++ lit "042B " ++ [31] ++ lit "aXA-GB" ++ [30] ++ lit "047A/03 " ++ [31] ++ lit "eDE-386" ++ [30] ++ lit "047A/03 " ++ [31] ++ lit "rDE-576" ++ [30] ++ lit "047C " ++ [31] ++ lit "Spnd" ++ [31] ++ lit "ia" ++ [31] ++ lit "aLovelace, Ada King /of" ++ [31] ++ lit "0119232022" ++ [30] ++ lit "047C " ++ [31] ++ lit "Spnd" ++ [31] ++ lit "ia" ++ [31] ++ lit "aLovelace, Ada K. /of" ++ [31] ++ lit "0172642531" ++ [30] ++ lit "050C " ++ [31] ++ lit "aDer Ehemann Baron William King (1805-1893) wurde 1838 zum 1. Earl of Lovelace erhoben." ++ [30] ++ lit "050E " ++ [31] ++ lit "aLoC-Na gegen Modern Engl. biogr." ++ [30] ++ lit "050E " ++ [31] ++ lit "ahttps://de.wikipedia.org/wiki/Ada_Lovelace" ++ [30] ++ lit "050E " ++ [31] ++ lit "aLCAuth, (OGND)" ++ [30] ++ lit "050G " ++ [31] ++ lit "bBrit. Mathematikerin; Countess of Lovelace" ++ [30] ++ lit "050G " ++ [31] ++ lit "bInformatikerin, Mathematikerin, Grossbritannien" ++ [30] ++ lit "060R " ++ [31] ++ lit "a10.12.1815" ++ [31] ++ lit "b27.12.1852" ++ [31] ++ lit "4datx" ++ [30] ++ lit "060R " ++ [31] ++ lit "a1815" ++ [31] ++ lit "b1852" ++ [31] ++ lit "4datl" ++ [30] ++ lit "065R " ++ [31] ++ lit "9040743357" ++ [31] ++ lit "7Tgz" ++ [31] ++ lit "Vgik" ++ [31] ++ lit "Agnd" ++ [31] ++ lit "04074335-4" ++ [31] ++ lit "aLondon" ++ [31] ++ lit "4ortg" ++ [30] ++ lit "065R " ++ [31] ++ lit "9040743357" ++ [31] ++ lit "7Tgz" ++ [31] ++ lit "Vgik" ++ [31] ++ lit "Agnd" ++ [31] ++ lit "04074335-4" ++ [31] ++ lit "aLondon" ++ [31] ++ lit "4orts" ++ [30] ++ lit "070A/03 " ++ [31] ++ lit "0(DE-588)119232022" ++ [30; 29]).

(** /repo/tests/data/ada.import *)
Definition ada_import : bytes :=
  (lit "'" ++ [29; 10])
  ++ ([30] ++ lit "001A " ++ [31] ++ lit "00386:16-03-95" ++ [10])
  ++ ([30] ++ lit "001B " ++ [31] ++ lit "08999:20-07-20" ++ [31] ++ lit "t13:19:49.000" ++ [10])
  ++ ([30] ++ lit "001D " ++ [31] ++ lit "09999:06-04-08" ++ [10])
  ++ ([30] ++ lit "001U " ++ [31] ++ lit "0utf8" ++ [10])
  ++ ([30] ++ lit "001X " ++ [31] ++ lit "00" ++ [10])
  ++ ([30] ++ lit "002@ " ++ [31] ++ lit "0Tp1" ++ [10])
  ++ ([30] ++ lit "003@ " ++ [31] ++ lit "0119232022" ++ [10])
  ++ ([30] ++ lit "003U " ++ [31] ++ lit "ahttp://d-nb.info/gnd/119232022" ++ [31] ++ lit "zhttp://d-nb.info/gnd/172642531" ++ [10])
  ++ ([30] ++ lit "004B " ++ [31] ++ lit "apik" ++ [10])
  ++ ([30] ++ lit "007K " ++ [31] ++ lit "agnd" ++ [31] ++ lit "0119232022" ++ [10])
  ++ ([30] ++ lit "007N " ++ [31] ++ lit "agnd" ++ [31] ++ lit "0172642531" ++ [10])
  ++ ([30] ++ lit "007N " ++ [31] ++ lit "apnd" ++ [31] ++ lit "0172642531" ++ [31] ++ lit "vzg" ++ [10])
  ++ ([30] ++ lit "007N " ++ [31] ++ lit "apnd" ++ [31] ++ lit "0119232022" ++ [31] ++ lit "vzg" ++ [10])
  ++ ([30] ++ lit "007N " ++ [31] ++ lit "aswd" ++ [31] ++ lit "04370325-2" ++ [31] ++ lit "vzg" ++ [10])
  ++ ([30] ++ lit "008A " ++ [31] ++ lit "as" ++ [31] ++ lit "az" ++ [31] ++ lit "af" ++ [10])
  ++ ([30] ++ lit "008B " ++ [31] ++ lit "aw" ++ [31] ++ lit "ak" ++ [31] ++ lit "av" ++ [10])
  ++ ([30] ++ lit "010E " ++ [31] ++ lit "erda" ++ [10])
  ++ ([30] ++ lit "028@ " ++ [31] ++ lit "dAda K." ++ [31] ++ lit "cof" ++ [31] ++ lit "aLovelace" ++ [10])
  ++ ([30] ++ lit "028@ " ++ [31] ++ lit "dAugusta Ada" ++ [31] ++ lit "cof" ++ [31] ++ lit "aLovelace" ++ [10])
  ++ ([30] ++ lit "028@ " ++ [31] ++ lit "dAda Augusta" ++ [31] ++ lit "cof" ++ [31] ++ lit "aLovelace" ++ [10])
  ++ ([30] ++ lit "028@ " ++ [31] ++ lit "dAda" ++ [31] ++ lit "aByron" ++ [10])
  ++ ([30] ++ lit "028@ " ++ [31] ++ lit "dAugusta Ada" ++ [31] ++ lit "aByron King" ++ [10])
  ++ ([30] ++ lit "028@ " ++ [31] ++ lit "dAugusta Ada" ++ [31] ++ lit "aKing" ++ [10])
  ++ ([30] ++ lit "028@ " ++ [31] ++ lit "dAda" ++ [31] ++ lit "aKing" ++ [10])
  ++ ([30] ++ lit "028@ " ++ [31] ++ lit "dAda Augusta" ++ [31] ++ lit "aByron" ++ [31] ++ lit "4nafr" ++ [10])
  ++ ([30] ++ lit "028@ " ++ [31] ++ lit "dAugusta Ada" ++ [31] ++ lit "aByron" ++ [10])
  ++ ([30] ++ lit "028@ " ++ [31] ++ lit "dAda" ++ [31] ++ lit "aByron Lovelace" ++ [10])
  ++ ([30] ++ lit "028@ " ++ [31] ++ lit "dAda" ++ [31] ++ lit "aLovelace" ++ [10])
  ++ ([30] ++ lit "028@ " ++ [31] ++ lit "dAda King, Countess of" ++ [31] ++ lit "aLovelace" ++ [10])
  ++ ([30] ++ lit "028@ " ++ [31] ++ lit "dAugusta Ada King" ++ [31] ++ lit "aLovelace" ++ [10])
  ++ ([30] ++ lit "028@ " ++ [31] ++ lit "dAugusta Ada" ++ [31] ++ lit "aLovelace" ++ [10])
  ++ ([30] ++ lit "028A " ++ [31] ++ lit "dAda King" ++ [31] ++ lit "cof" ++ [31] ++ lit "aLovelace" ++ [10])
  ++ ([30] ++ lit "028R " ++ [31] ++ lit "9118518208" ++ [31] ++ lit "7Tp1" ++ [31] ++ lit "Vpiz" ++ [31] ++ lit "Agnd" ++ [31] ++ lit "0118518208" ++ [31] ++ lit "E1788" ++ [31] ++ lit "G1824" ++ [31] ++ lit "dGeorge Gordon Byron" ++ [31] ++ lit "aByron" ++ [31] ++ lit "lBaron" ++ [31] ++ lit "4bezf" ++ [31] ++ lit "vVater" ++ [10])
  ++ ([30] ++ lit "028R " ++ [31] ++ lit "9118638130" ++ [31] ++ lit "7Tp1" ++ [31] ++ lit "Vpiz" ++ [31] ++ lit "Agnd" ++ [31] ++ lit "0118638130" ++ [31] ++ lit "E1792" ++ [31] ++ lit "G1860" ++ [31] ++ lit "dAnne Isabella Milbanke Byron" ++ [31] ++ lit "aByron" ++ [31] ++ lit "4bezf" ++ [31] ++ lit "vMutter" ++ [10])
  ++ ([30] ++ lit "028R " ++ [31] ++ lit "9119389991" ++ [31] ++ lit "7Tp1" ++ [31] ++ lit "Vpiz" ++ [31] ++ lit "Agnd" ++ [31] ++ lit "0119389991" ++ [31] ++ lit "E1837" ++ [31] ++ lit "G1917" ++ [31] ++ lit "dAnne Isabella" ++ [31] ++ lit "aBlunt" ++ [31] ++ lit "4bezf" ++ [31] ++ lit "vTochter" ++ [10])
  ++ ([30] ++ lit "028R " ++ [31] ++ lit "dwilliam" ++ [31] ++ lit "aking" ++ [31] ++ lit "4bezf" ++ [10])
  ++ ([30] ++ lit "032T " ++ [31] ++ lit "af" ++ [10])
  ++ ([30] ++ lit "041R " ++ [31] ++ lit "9042527880" ++ [31] ++ lit "7Ts1" ++ [31] ++ lit "Vsaz" ++ [31] ++ lit "Agnd" ++ [31] ++ lit "04252788-0" ++ [31] ++ lit "aMathematikerin" ++ [31] ++ lit "4berc" ++ [10])
  ++ ([30] ++ lit "042A " ++ [31] ++ lit "a28p" ++ [31] ++ lit "a9.5p" ++ [10])
  ++ ([30] ++ lit "042B " ++ [31] ++ lit "aXA-GB" ++ [10])
  ++ ([30] ++ lit "047A/03 " ++ [31] ++ lit "eDE-386" ++ [10])
  ++ ([30] ++ lit "047A/03 " ++ [31] ++ lit "rDE-576" ++ [10])
  ++ ([30] ++ lit "047C " ++ [31] ++ lit "Spnd" ++ [31] ++ lit "ia" ++ [31] ++ lit "aLovelace, Ada King /of" ++ [31] ++ lit "0119232022" ++ [10])
  ++ ([30] ++ lit "047C " ++ [31] ++ lit "Spnd" ++ [31] ++ lit "ia" ++ [31] ++ lit "aLovelace, Ada K. /of" ++ [31] ++ lit "0172642531" ++ [10])
  ++ ([30] ++ lit "050C " ++ [31] ++ lit "aDer Ehemann Baron William King (1805-1893) wurde 1838 zum 1. Earl of Lovelace erhoben." ++ [10])
  ++ ([30] ++ lit "050E " ++ [31] ++ lit "aLoC-Na gegen Modern Engl. biogr." ++ [10])
  ++ ([30] ++ lit "050E " ++ [31] ++ lit "ahttps://de.wikipedia.org/wiki/Ada_Lovelace" ++ [10])
  ++ ([30] ++ lit "050E " ++ [31] ++ lit "aLCAuth, (OGND)" ++ [10])
  ++ ([30] ++ lit "050G " ++ [31] ++ lit "bBrit. Mathematikerin; Countess of Lovelace" ++ [10])
  ++ ([30] ++ lit "050G " ++ [31] ++ lit "bInformatikerin, Mathematikerin, Grossbritannien" ++ [10])
  ++ ([30] ++ lit "060R " ++ [31] ++ lit "a10.12.1815" ++ [31] ++ lit "b27.12.1852" ++ [31] ++ lit "4datx" ++ [10])
  ++ ([30] ++ lit "060R " ++ [31] ++ lit "a1815" ++ [31] ++ lit "b1852" ++ [31] ++ lit "4datl" ++ [10])
  ++ ([30] ++ lit "065R " ++ [31] ++ lit "9040743357" ++ [31] ++ lit "7Tgz" ++ [31] ++ lit "Vgik" ++ [31] ++ lit "Agnd" ++ [31] ++ lit "04074335-4" ++ [31] ++ lit "aLondon" ++ [31] ++ lit "4ortg" ++ [10])
  ++ ([30] ++ lit "065R " ++ [31] ++ lit "9040743357" ++ [31] ++ lit "7Tgz" ++ [31] ++ lit "Vgik" ++ [31] ++ lit "Agnd" ++ [31] ++ lit "04074335-4" ++ [31] ++ lit "aLondon" ++ [31] ++ lit "4orts" ++ [10])
  ++ ([30] ++ lit "070A/03 " ++ [31] ++ lit "0(DE-588)119232022" ++ [10]).

(** /repo/tests/data/ada.json *)
Definition ada_json : bytes :=
  lit "[[[""001A"",null,""0"",""0386:16-03-95""],[""001B"",null,""0"",""8999:20-07-20"",""t"",""13:19:49.000""],[""001D"",null,""0"",""9999:06-04-08""],[""001U"",null,""0"",""utf8""],[""001X"",null,""0"",""0""],[""002@"",null,""0"",""Tp1""],[""003@"",null,""0"",""119232022""],[""003U"",null,""a"",""http://d-nb.info/gnd/119232022"",""z"",""http://d-nb.info/gnd/172642531""],[""004B"",null,""a"",""pik""],[""007K"",null,""a"",""gnd"",""0"",""119232022""],[""007N"",null,""a"",""gnd"",""0"",""172642531""],[""007N"",null,""a"",""pnd"",""0"",""172642531"",""v"",""zg""],[""007N"",null,""a"",""pnd"",""0"",""119232022"",""v"",""zg""],[""007N"",null,""a"",""swd"",""0"",""4370325-2"",""v"",""zg""],[""008A"",null,""a"",""s"",""a"",""z"",""a"",""f""],[""008B"",null,""a"",""w"",""a"",""k"",""a"",""v""],[""010E"",null,""e"",""rda""],[""028@"",null,""d"",""Ada K."",""c"",""of"",""a"",""Lovelace""],[""028@"",null,""d"",""Augusta Ada"",""c"",""of"",""a"",""Lovelace""],[""028@"",null,""d"",""Ada Augusta"",""c"",""of"",""a"",""Lovelace""],[""028@"",null,""d"",""Ada"",""a"",""Byron""],[""028@"",null,""d"",""Augusta Ada"",""a"",""Byron King""],[""028@"",null,""d"",""Augusta Ada"",""a"",""King""],[""028@"",null,""d"",""Ada"",""a"",""King""],[""028@"",null,""d"",""Ada Augusta"",""a"",""Byron"",""4"",""nafr""],[""028@"",null,""d"",""Augusta Ada"",""a"",""Byron""],[""028@"",null,""d"",""Ada"",""a"",""Byron Lovelace""],[""028@"",null,""d"",""Ada"",""a"",""Lovelace""],[""028@"",null,""d"",""Ada King, Countess of"",""a"",""Lovelace""],[""028@"",null,""d"",""Augusta Ada King"",""a"",""Lovelace""],[""028@"",null,""d"",""Augusta Ada"",""a"",""Lovelace""],[""028A"",null,""d"",""Ada King"",""c"",""of"",""a"",""Lovelace""],[""028R"",null,""9"",""118518208"",""7"",""Tp1"",""V"",""piz"",""A"",""gnd"",""0"",""118518208"",""E"",""1788"",""G"",""1824"",""d"",""George Gordon Byron"",""a"",""Byron"",""l"",""Baron"",""4"",""bezf"",""v"",""Vater""],[""028R"",null,""9"",""118638130"",""7"",""Tp1"",""V"",""piz"",""A"",""gnd"",""0"",""118638130"",""E"",""1792"",""G"",""1860"",""d"",""Anne Isabella Milbanke Byron"",""a"",""Byron"",""4"",""bezf"",""v"",""Mutter""],[""028R"",null,""9"",""119389991"",""7"",""Tp1"",""V"",""piz"",""A"",""gnd"",""0"",""119389991"",""E"",""1837"",""G"",""1917"",""d"",""Anne Isabella"",""a"",""Blunt"",""4"",""bezf"",""v"",""Tochter""],[""028R"",null,""d"",""william"",""a"",""king"",""4"",""bezf""],[""032T"",null,""a"",""f""],[""041R"",null,""9"",""042527880"",""7"",""Ts1"",""V"",""saz"",""A"",""gnd"",""0"",""4252788-0"",""a"",""Mathematikerin"",""4"",""berc""],[""042A"",null,""a"",""28p"",""a"",""9.5p""],[""042B"",null,""a"",""XA-GB""],[""047A"",""/03"",""e"",""DE-386""],[""047A"",""/03"",""r"",""DE-576""],[""047C"",null,""S"",""pnd"",""i"",""a"",""a"",""Lovelace, Ada King /of"",""0"",""119232022""],[""047C"",null,""S"",""pnd"",""i"",""a"",""a"",""Lovelace, Ada K. /of"",""0"",""172642531""],[""050C"",null,""a"",""Der Ehemann Baron William King (1805-1893) wurde 1838 zum 1. Earl of Lovelace erhoben.""],[""050E"",null,""a"",""LoC-Na gegen Modern Engl. biogr.""],[""050E"",null,""a"",""https://de.wikipedia.org/wiki/Ada_Lovelace""],[""050E"",null,""a"",""LCAuth, (OGND)""],[""050G"",null,""b"",""Brit. Mathematikerin; Countess of Lovelace""],[""050G"",null,""b"",""Informatikerin, Mathematikerin, Grossbritannien""],[""060R"",null,""a"",""10.12.1815"",""b"",""27.12.1852"",""4"",""datx""],[""060R"",null,""a"",""1815"",""b"",""1852"",""4"",""datl""],[""065R"",null,""9"",""040743357"",""7"",""Tgz"",""V"",""gik"",""A"",""gnd"",""0"",""4074335-4"",""a"",""London"",""4"",""ortg""],[""065R"",null,""9"",""040743357"",""7"",""Tgz"",""V"",""gik"",""A"",""gnd"",""0"",""4074335-4"",""a"",""London"",""4"",""orts""],[""070A"",""/03"",""0"",""(DE-588)119232022""]]]".

(** /repo/tests/data/ada.plain *)
Definition ada_plain : bytes :=
  (lit "001A $00386:16-03-95" ++ [10])
  ++ (lit "001B $08999:20-07-20$t13:19:49.000" ++ [10])
  ++ (lit "001D $09999:06-04-08" ++ [10])
  ++ (lit "001U $0utf8" ++ [10])
  ++ (lit "001X $00" ++ [10])
  ++ (lit "002@ $0Tp1" ++ [10])
  ++ (lit "003@ $0119232022" ++ [10])
  ++ (lit "003U $ahttp://d-nb.info/gnd/119232022$zhttp://d-nb.info/gnd/172642531" ++ [10])
  ++ (lit "004B $apik" ++ [10])
  ++ (lit "007K $agnd$0119232022" ++ [10])
  ++ (lit "007N $agnd$0172642531" ++ [10])
  ++ (lit "007N $apnd$0172642531$vzg" ++ [10])
  ++ (lit "007N $apnd$0119232022$vzg" ++ [10])
  ++ (lit "007N $aswd$04370325-2$vzg" ++ [10])
  ++ (lit "008A $as$az$af" ++ [10])
  ++ (lit "008B $aw$ak$av" ++ [10])
  ++ (lit "010E $erda" ++ [10])
  ++ (lit "028@ $dAda K.$cof$aLovelace" ++ [10])
  ++ (lit "028@ $dAugusta Ada$cof$aLovelace" ++ [10])
  ++ (lit "028@ $dAda Augusta$cof$aLovelace" ++ [10])
  ++ (lit "028@ $dAda$aByron" ++ [10])
  ++ (lit "028@ $dAugusta Ada$aByron King" ++ [10])
  ++ (lit "028@ $dAugusta Ada$aKing" ++ [10])
  ++ (lit "028@ $dAda$aKing" ++ [10])
  ++ (lit "028@ $dAda Augusta$aByron$4nafr" ++ [10])
  ++ (lit "028@ $dAugusta Ada$aByron" ++ [10])
  ++ (lit "028@ $dAda$aByron Lovelace" ++ [10])
  ++ (lit "028@ $dAda$aLovelace" ++ [10])
  ++ (lit "028@ $dAda King, Countess of$aLovelace" ++ [10])
  ++ (lit "028@ $dAugusta Ada King$aLovelace" ++ [10])
  ++ (lit "028@ $dAugusta Ada$aLovelace" ++ [10])
  ++ (lit "028A $dAda King$cof$aLovelace" ++ [10])
  ++ (lit "028R $9118518208$7Tp1$Vpiz$Agnd$0118518208$E1788$G1824$dGeorge Gordon Byron$aByron$lBaron$4bezf$vVater" ++ [10])
  ++ (lit "028R $9118638130$7Tp1$Vpiz$Agnd$0118638130$E1792$G1860$dAnne Isabella Milbanke Byron$aByron$4bezf$vMutter" ++ [10])
  ++ (lit "028R $9119389991$7Tp1$Vpiz$Agnd$0119389991$E1837$G1917$dAnne Isabella$aBlunt$4bezf$vTochter" ++ [10])
  ++ (lit "028R $dwilliam$aking$4bezf" ++ [10])
  ++ (lit "032T $af" ++ [10])
  ++ (lit "041R $9042527880$7Ts1$Vsaz$Agnd$04252788-0$aMathematikerin$4berc" ++ [10])
  ++ (lit "042A $a28p$a9.5p" ++ [10])
  ++ (lit "042B $aXA-GB" ++ [10])
  ++ (lit "047A/03 $eDE-386" ++ [10])
  ++ (lit "047A/03 $rDE-576" ++ [10])
  ++ (lit "047C $Spnd$ia$aLovelace, Ada King /of$0119232022" ++ [10])
  ++ (lit "047C $Spnd$ia$aLovelace, Ada K. /of$0172642531" ++ [10])
  ++ (lit "050C $aDer Ehemann Baron William King (1805-1893) wurde 1838 zum 1. Earl of Lovelace erhoben." ++ [10])
  ++ (lit "050E $aLoC-Na gegen Modern Engl. biogr." ++ [10])
  ++ (lit "050E $ahttps://de.wikipedia.org/wiki/Ada_Lovelace" ++ [10])
  ++ (lit "050E $aLCAuth, (OGND)" ++ [10])
  ++ (lit "050G $bBrit. Mathematikerin; Countess of Lovelace" ++ [10])
  ++ (lit "050G $bInformatikerin, Mathematikerin, Grossbritannien" ++ [10])
  ++ (lit "060R $a10.12.1815$b27.12.1852$4datx" ++ [10])
  ++ (lit "060R $a1815$b1852$4datl" ++ [10])
  ++ (lit "065R $9040743357$7Tgz$Vgik$Agnd$04074335-4$aLondon$4ortg" ++ [10])
  ++ (lit "065R $9040743357$7Tgz$Vgik$Agnd$04074335-4$aLondon$4orts" ++ [10])
  ++ (lit "070A/03 $0(DE-588)119232022" ++ [10]).

(** /repo/tests/data/ada.txt *)
Definition ada_txt : bytes :=
  (lit "001A $0 0386:16-03-95" ++ [10])
  ++ (lit "001B $0 8999:20-07-20 $t 13:19:49.000" ++ [10])
  ++ (lit "001D $0 9999:06-04-08" ++ [10])
  ++ (lit "001U $0 utf8" ++ [10])
  ++ (lit "001X $0 0" ++ [10])
  ++ (lit "002@ $0 Tp1" ++ [10])
  ++ (lit "003@ $0 119232022" ++ [10])
  ++ (lit "003U $a http://d-nb.info/gnd/119232022 $z http://d-nb.info/gnd/172642531" ++ [10])
  ++ (lit "004B $a pik" ++ [10])
  ++ (lit "007K $a gnd $0 119232022" ++ [10])
  ++ (lit "007N $a gnd $0 172642531" ++ [10])
  ++ (lit "007N $a pnd $0 172642531 $v zg" ++ [10])
  ++ (lit "007N $a pnd $0 119232022 $v zg" ++ [10])
  ++ (lit "007N $a swd $0 4370325-2 $v zg" ++ [10])
  ++ (lit "008A $a s $a z $a f" ++ [10])
  ++ (lit "008B $a w $a k $a v" ++ [10])
  ++ (lit "010E $e rda" ++ [10])
  ++ (lit "028@ $d Ada K. $c of $a Lovelace" ++ [10])
  ++ (lit "028@ $d Augusta Ada $c of $a Lovelace" ++ [10])
  ++ (lit "028@ $d Ada Augusta $c of $a Lovelace" ++ [10])
  ++ (lit "028@ $d Ada $a Byron" ++ [10])
  ++ (lit "028@ $d Augusta Ada $a Byron King" ++ [10])
  ++ (lit "028@ $d Augusta Ada $a King" ++ [10])
  ++ (lit "028@ $d Ada $a King" ++ [10])
  ++ (lit "028@ $d Ada Augusta $a Byron $4 nafr" ++ [10])
  ++ (lit "028@ $d Augusta Ada $a Byron" ++ [10])
  ++ (lit "028@ $d Ada $a Byron Lovelace" ++ [10])
  ++ (lit "028@ $d Ada $a Lovelace" ++ [10])
  ++ (lit "028@ $d Ada King, Countess of $a Lovelace" ++ [10])
  ++ (lit "028@ $d Augusta Ada King $a Lovelace" ++ [10])
  ++ (lit "028@ $d Augusta Ada $a Lovelace" ++ [10])
  ++ (lit "028A $d Ada King $c of $a Lovelace" ++ [10])
  ++ (lit "028R $9 118518208 $7 Tp1 $V piz $A gnd $0 118518208 $E 1788 $G 1824 $d George Gordon Byron $a Byron $l Baron $4 bezf $v Vater" ++ [10])
  ++ (lit "028R $9 118638130 $7 Tp1 $V piz $A gnd $0 118638130 $E 1792 $G 1860 $d Anne Isabella Milbanke Byron $a Byron $4 bezf $v Mutter" ++ [10])
  ++ (lit "028R $9 119389991 $7 Tp1 $V piz $A gnd $0 119389991 $E 1837 $G 1917 $d Anne Isabella $a Blunt $4 bezf $v Tochter" ++ [10])
  ++ (lit "028R $d william $a king $4 bezf" ++ [10])
  ++ (lit "032T $a f" ++ [10])
  ++ (lit "041R $9 042527880 $7 Ts1 $V saz $A gnd $0 4252788-0 $a Mathematikerin $4 berc" ++ [10])
  ++ (lit "042A $a 28p $a 9.5p" ++ [10])
  ++ (lit "042B $a XA-GB" ++ [10])
  ++ (lit "047A/03 $e DE-386" ++ [10])
  ++ (lit "047A/03 $r DE-576" ++ [10])
  ++ (lit "047C $S pnd $i a $a Lovelace, Ada King /of $0 119232022" ++ [10])
  ++ (lit "047C $S pnd $i a $a Lovelace, Ada K. /of $0 172642531" ++ [10])
  ++ (lit "050C $a Der Ehemann Baron William King (1805-1893) wurde 1838 zum 1. Earl of Lovelace erhoben." ++ [10])
  ++ (lit "050E $a LoC-Na gegen Modern Engl. biogr." ++ [10])
  ++ (lit "050E $a https://de.wikipedia.org/wiki/Ada_Lovelace" ++ [10])
  ++ (lit "050E $a LCAuth, (OGND)" ++ [10])
  ++ (lit "050G $b Brit. Mathematikerin; Countess of Lovelace" ++ [10])
  ++ (lit "050G $b Informatikerin, Mathematikerin, Grossbritannien" ++ [10])
  ++ (lit "060R $a 10.12.1815 $b 27.12.1852 $4 datx" ++ [10])
  ++ (lit "060R $a 1815 $b 1852 $4 datl" ++ [10])
  ++ (lit "065R $9 040743357 $7 Tgz $V gik $A gnd $0 4074335-4 $a London $4 ortg" ++ [10])
  ++ (lit "065R $9 040743357 $7 Tgz $V gik $A gnd $0 4074335-4 $a London $4 orts" ++ [10])
  ++ (lit "070A/03 $0 (DE-588)119232022" ++ [10])
  ++ [10].

(** /repo/tests/data/ada.xml *)
Definition ada_xml : bytes :=
  (lit "<?xml version=""1.0"" encoding=""UTF-8""?>" ++ [10])
  ++ (lit "<collection targetNamespace=""info:srw/schema/5/picaXML-v1.0"" xmlns:xs=""http://www.w3.org/2001/XMLSchema"" xmlns=""info:srw/schema/5/picaXML-v1.0"">" ++ [10])
  ++ (lit "    <record>" ++ [10])
  ++ (lit "        <datafield tag=""001A"">" ++ [10])
  ++ (lit "            <subfield code=""0"">0386:16-03-95</subfield>" ++ [10])
  ++ (lit "        </datafield>" ++ [10])
  ++ (lit "        <datafield tag=""001B"">" ++ [10])
  ++ (lit "            <subfield code=""0"">8999:20-07-20</subfield>" ++ [10])
  ++ (lit "            <subfield code=""t"">13:19:49.000</subfield>" ++ [10])
  ++ (lit "        </datafield>" ++ [10])
  ++ (lit "        <datafield tag=""001D"">" ++ [10])
  ++ (lit "            <subfield code=""0"">9999:06-04-08</subfield>" ++ [10])
  ++ (lit "        </datafield>" ++ [10])
  ++ (lit "        <datafield tag=""001U"">" ++ [10])
  ++ (lit "            <subfield code=""0"">utf8</subfield>" ++ [10])
  ++ (lit "        </datafield>" ++ [10])
  ++ (lit "        <datafield tag=""001X"">" ++ [10])
  ++ (lit "            <subfield code=""0"">0</subfield>" ++ [10])
  ++ (lit "        </datafield>" ++ [10])
  ++ (lit "        <datafield tag=""002@"">" ++ [10])
  ++ (lit "            <subfield code=""0"">Tp1</subfield>" ++ [10])
  ++ (lit "        </datafield>" ++ [10])
  ++ (lit "        <datafield tag=""003@"">" ++ [10])
  ++ (lit "            <subfield code=""0"">119232022</subfield>" ++ [10])
  ++ (lit "        </datafield>" ++ [10])
  ++ (lit "        <datafield tag=""003U"">" ++ [10])
  ++ (lit "            <subfield code=""a"">http://d-nb.info/gnd/119232022</subfield>" ++ [10])
  ++ (lit "            <subfield code=""z"">http://d-nb.info/gnd/172642531</subfield>" ++ [10])
  ++ (lit "        </datafield>" ++ [10])
  ++ (lit "        <datafield tag=""004B"">" ++ [10])
  ++ (lit "            <subfield code=""a"">pik</subfield>" ++ [10])
  ++ (lit "        </datafield>" ++ [10])
  ++ (lit "        <datafield tag=""007K"">" ++ [10])
  ++ (lit "            <subfield code=""a"">gnd</subfield>" ++ [10])
  ++ (lit "            <subfield code=""0"">119232022</subfield>" ++ [10])
  ++ (lit "        </datafield>" ++ [10])
  ++ (lit "        <datafield tag=""007N"">" ++ [10])
  ++ (lit "            <subfield code=""a"">gnd</subfield>" ++ [10])
  ++ (lit "            <subfield code=""0"">172642531</subfield>" ++ [10])
  ++ (lit "        </datafield>" ++ [10])
  ++ (lit "        <datafield tag=""007N"">" ++ [10])
  ++ (lit "            <subfield code=""a"">pnd</subfield>" ++ [10])
  ++ (lit "            <subfield code=""0"">172642531</subfield>" ++ [10])
  ++ (lit "            <subfield code=""v"">zg</subfield>" ++ [10])
  ++ (lit "        </datafield>" ++ [10])
  ++ (lit "        <datafield tag=""007N"">" ++ [10])
  ++ (lit "            <subfield code=""a"">pnd</subfield>" ++ [10])
  ++ (lit "            <subfield code=""0"">119232022</subfield>" ++ [10])
  ++ (lit "            <subfield code=""v"">zg</subfield>" ++ [10])
  ++ (lit "        </datafield>" ++ [10])
  ++ (lit "        <datafield tag=""007N"">" ++ [10])
  ++ (lit "            <subfield code=""a"">swd</subfield>" ++ [10])
  ++ (lit "            <subfield code=""0"">4370325-2</subfield>" ++ [10])
  ++ (lit "            <subfield code=""v"">zg</subfield>" ++ [10])
  ++ (lit "        </datafield>" ++ [10])
  ++ (lit "        <datafield tag=""008A"">" ++ [10])
  ++ (lit "            <subfield code=""a"">s</subfield>" ++ [10])
  ++ (lit "            <subfield code=""a"">z</subfield>" ++ [10])
  ++ (lit "            <subfield code=""a"">f</subfield>" ++ [10])
  ++ (lit "        </datafield>" ++ [10])
  ++ (lit "        <datafield tag=""008B"">" ++ [10])
  ++ (lit "            <subfield code=""a"">w</subfield>" ++ [10])
  ++ (lit "            <subfield code=""a"">k</subfield>" ++ [10])
  ++ (lit "            <subfield code=""a"">v</subfield>" ++ [10])
  ++ (lit "        </datafield>" ++ [10])
  ++ (lit "        <datafield tag=""010E"">" ++ [10])
  ++ (lit "            <subfield code=""e"">rda</subfield>" ++ [10])
  ++ (lit "        </datafield>" ++ [10])
  ++ (lit "        <datafield tag=""028@"">" ++ [10])
  ++ (lit "            <subfield code=""d"">Ada K.</subfield>" ++ [10])
  ++ (lit "            <subfield code=""c"">of</subfield>" ++ [10])
  ++ (lit "            <subfield code=""a"">Lovelace</subfield>" ++ [10])
  ++ (lit "        </datafield>" ++ [10])
  ++ (lit "        <datafield tag=""028@"">" ++ [10])
  ++ (lit "            <subfield code=""d"">Augusta Ada</subfield>" ++ [10])
  ++ (lit "            <subfield code=""c"">of</subfield>" ++ [10])
  ++ (lit "            <subfield code=""a"">Lovelace</subfield>" ++ [10])
  ++ (lit "        </datafield>" ++ [10])
  ++ (lit "        <datafield tag=""028@"">" ++ [10])
  ++ (lit "            <subfield code=""d"">Ada Augusta</subfield>" ++ [10])
  ++ (lit "            <subfield code=""c"">of</subfield>" ++ [10])
  ++ (lit "            <subfield code=""a"">Lovelace</subfield>" ++ [10])
  ++ (lit "        </datafield>" ++ [10])
  ++ (lit "        <datafield tag=""028@"">" ++ [10])
  ++ (lit "            <subfield code=""d"">Ada</subfield>" ++ [10])
  ++ (lit "            <subfield code=""a"">Byron</subfield>" ++ [10])
  ++ (lit "        </datafield>" ++ [10])
  ++ (lit "        <datafield tag=""028@"">" ++ [10])
  ++ (lit "            <subfield code=""d"">Augusta Ada</subfield>" ++ [10])
  ++ (lit "            <subfield code=""a"">Byron King</subfield>" ++ [10])
  ++ (lit "        </datafield>" ++ [10])
  ++ (lit "        <datafield tag=""028@"">" ++ [10])
  ++ (lit "            <subfield code=""d"">Augusta Ada</subfield>" ++ [10])
  ++ (lit "            <subfield code=""a"">King</subfield>" ++ [10])
  ++ (lit "        </datafield>" ++ [10])
  ++ (lit "        <datafield tag=""028@"">" ++ [10])
  ++ (lit "            <subfield code=""d"">Ada</subfield>" ++ [10])
  ++ (lit "            <subfield code=""a"">King</subfield>" ++ [10])
  ++ (lit "        </datafield>" ++ [10])
  ++ (lit "        <datafield tag=""028@"">" ++ [10])
  ++ (lit "            <subfield code=""d"">Ada Augusta</subfield>" ++ [10])
  ++ (lit "            <subfield code=""a"">Byron</subfield>" ++ [10])
  ++ (lit "            <subfield code=""4"">nafr</subfield>" ++ [10])
  ++ (lit "        </datafield>" ++ [10])
  ++ (lit "        <datafield tag=""028@"">" ++ [10])
  ++ (lit "            <subfield code=""d"">Augusta Ada</subfield>" ++ [10])
  ++ (lit "            <subfield code=""a"">Byron</subfield>" ++ [10])
  ++ (lit "        </datafield>" ++ [10])
  ++ (lit "        <datafield tag=""028@"">" ++ [10])
  ++ (lit "            <subfield code=""d"">Ada</subfield>" ++ [10])
  ++ (lit "            <subfield code=""a"">Byron Lovelace</subfield>" ++ [10])
  ++ (lit "        </datafield>" ++ [10])
  ++ (lit "        <datafield tag=""028@"">" ++ [10])
  ++ (lit "            <subfield code=""d"">Ada</subfield>" ++ [10])
  ++ (lit "            <subfield code=""a"">Lovelace</subfield>" ++ [10])
  ++ (lit "        </datafield>" ++ [10])
  ++ (lit "        <datafield tag=""028@"">" ++ [10])
  ++ (lit "            <subfield code=""d"">Ada King, Countess of</subfield>" ++ [10])
  ++ (lit "            <subfield code=""a"">Lovelace</subfield>" ++ [10])
  ++ (lit "        </datafield>" ++ [10])
  ++ (lit "        <datafield tag=""028@"">" ++ [10])
  ++ (lit "            <subfield code=""d"">Augusta Ada King</subfield>" ++ [10])
  ++ (lit "            <subfield code=""a"">Lovelace</subfield>" ++ [10])
  ++ (lit "        </datafield>" ++ [10])
  ++ (lit "        <datafield tag=""028@"">" ++ [10])
  ++ (lit "            <subfield code=""d"">Augusta Ada</subfield>" ++ [10])
  ++ (lit "            <subfield code=""a"">Lovelace</subfield>" ++ [10])
  ++ (lit "        </datafield>" ++ [10])
  ++ (lit "        <datafield tag=""028A"">" ++ [10])
  ++ (lit "            <subfield code=""d"">Ada King</subfield>" ++ [10])
  ++ (lit "            <subfield code=""c"">of</subfield>" ++ [10])
  ++ (lit "            <subfield code=""a"">Lovelace</subfield>" ++ [10])
  ++ (lit "        </datafield>" ++ [10])
  ++ (lit "        <datafield tag=""028R"">" ++ [10])
  ++ (lit "            <subfield code=""9"">118518208</subfield>" ++ [10])
  ++ (lit "            <subfield code=""7"">Tp1</subfield>" ++ [10])
  ++ (lit "            <subfield code=""V"">piz</subfield>" ++ [10])
  ++ (lit "            <subfield code=""A"">gnd</subfield>" ++ [10])
  ++ (lit "            <subfield code=""0"">118518208</subfield>" ++ [10])
  ++ (lit "            <subfield code=""E"">1788</subfield>" ++ [10])
  ++ (lit "            <subfield code=""G"">1824</subfield>" ++ [10])
  ++ (lit "            <subfield code=""d"">George Gordon Byron</subfield>" ++ [10])
  ++ (lit "            <subfield code=""a"">Byron</subfield>" ++ [10])
  ++ (lit "            <subfield code=""l"">Baron</subfield>" ++ [10])
  ++ (lit "            <subfield code=""4"">bezf</subfield>" ++ [10])
  ++ (lit "            <subfield code=""v"">Vater</subfield>" ++ [10])
  ++ (lit "        </datafield>" ++ [10])
  ++ (lit "        <datafield tag=""028R"">" ++ [10])
  ++ (lit "            <subfield code=""9"">118638130</subfield>" ++ [10])
  ++ (lit "            <subfield code=""7"">Tp1</subfield>" ++ [10])
  ++ (lit "            <subfield code=""V"">piz</subfield>" ++ [10])
  ++ (lit "            <subfield code=""A"">gnd</subfield>" ++ [10])
  ++ (lit "            <subfield code=""0"">118638130</subfield>" ++ [10])
  ++ (lit "            <subfield code=""E"">1792</subfield>" ++ [10])
  ++ (lit "            <subfield code=""G"">1860</subfield>" ++ [10])
  ++ (lit "            <subfield code=""d"">Anne Isabella Milbanke Byron</subfield>" ++ [10])
  ++ (lit "            <subfield code=""a"">Byron</subfield>" ++ [10])
  ++ (lit "            <subfield code=""4"">bezf</subfield>" ++ [10])
  ++ (lit "            <subfield code=""v"">Mutter</subfield>" ++ [10])
  ++ (lit "        </datafield>" ++ [10])
  ++ (lit "        <datafield tag=""028R"">" ++ [10])
  ++ (lit "            <subfield code=""9"">119389991</subfield>" ++ [10])
  ++ (lit "            <subfield code=""7"">Tp1</subfield>" ++ [10])
  ++ (lit "            <subfield code=""V"">piz</subfield>" ++ [10])
  ++ (lit "            <subfield code=""A"">gnd</subfield>" ++ [10])
  ++ (lit "            <subfield code=""0"">119389991</subfield>" ++ [10])
  ++ (lit "            <subfield code=""E"">1837</subfield>" ++ [10])
  ++ (lit "            <subfield code=""G"">1917</subfield>" ++ [10])
  ++ (lit "            <subfield code=""d"">Anne Isabella</subfield>" ++ [10])
  ++ (lit "            <subfield code=""a"">Blunt</subfield>" ++ [10])
  ++ (lit "            <subfield code=""4"">bezf</subfield>" ++ [10])
  ++ (lit "            <subfield code=""v"">Tochter</subfield>" ++ [10])
  ++ (lit "        </datafield>" ++ [10])
  ++ (lit "        <datafield tag=""028R"">" ++ [10])
  ++ (lit "            <subfield code=""d"">william</subfield>" ++ [10])
  ++ (lit "            <subfield code=""a"">king</subfield>" ++ [10])
  ++ (lit "            <subfield code=""4"">bezf</subfield>" ++ [10])
  ++ (lit "        </datafield>" ++ [10])
  ++ (lit "        <datafield tag=""032T"">" ++ [10])
  ++ (lit "            <subfield code=""a"">f</subfield>" ++ [10])
  ++ (lit "        </datafield>" ++ [10])
  ++ (lit "        <datafield tag=""041R"">" ++ [10])
  ++ (lit "            <subfield code=""9"">042527880</subfield>" ++ [10])
  ++ (lit "            <subfield code=""7"">Ts1</subfield>" ++ [10])
  ++ (lit "            <subfield code=""V"">saz</subfield>" ++ [10])
  ++ (lit "            <subfield code=""A"">gnd</subfield>" ++ [10])
  ++ (lit "            <subfield code=""0"">4252788-0</subfield>" ++ [10])
  ++ (lit "            <subfield code=""a"">Mathematikerin</subfield>" ++ [10])
  ++ (lit "            <subfield code=""4"">berc</subfield>" ++ [10])
  ++ (lit "        </datafield>" ++ [10])
  ++ (lit "        <datafield tag=""042A"">" ++ [10])
  ++ (lit "            <subfield code=""a"">28p</subfield>" ++ [10])
  ++ (lit "            <subfield code=""a"">9.5p</subfield>" ++ [10])
  ++ (lit "        </datafield>" ++ [10])
  ++ (lit "        <datafield tag=""042B"">" ++ [10])
  ++ (lit "            <subfield code=""a"">XA-GB</subfield>" ++ [10])
  ++ (lit "        </datafield>" ++ [10])
  ++ (lit "        <datafield tag=""047A"">" ++ [10])
  ++ (lit "            <subfield code=""e"">DE-386</subfield>" ++ [10])
  ++ (lit "        </datafield>" ++ [10])
  ++ (lit "        <datafield tag=""047A"">" ++ [10])
  ++ (lit "            <subfield code=""r"">DE-576</subfield>" ++ [10])
  ++ (lit "        </datafield>" ++ [10])
  ++ (lit "        <datafield tag=""047C"">" ++ [10])
  ++ (lit "            <subfield code=""S"">pnd</subfield>" ++ [10])
  ++ (lit "            <subfield code=""i"">a</subfield>" ++ [10])
  ++ (lit "            <subfield code=""a"">Lovelace, Ada King /of</subfield>" ++ [10])
  ++ (lit "            <subfield code=""0"">119232022</subfield>" ++ [10])
  ++ (lit "        </datafield>" ++ [10])
  ++ (lit "        <datafield tag=""047C"">" ++ [10])
  ++ (lit "            <subfield code=""S"">pnd</subfield>" ++ [10])
  ++ (lit "            <subfield code=""i"">a</subfield>" ++ [10])
  ++ (lit "            <subfield code=""a"">Lovelace, Ada K. /of</subfield>" ++ [10])
  ++ (lit "            <subfield code=""0"">172642531</subfield>" ++ [10])
  ++ (lit "        </datafield>" ++ [10])
  ++ (lit "        <datafield tag=""050C"">" ++ [10])
  ++ (lit "            <subfield code=""a"">Der Ehemann Baron William King (1805-1893) wurde 1838 zum 1. Earl of Lovelace erhoben.</subfield>" ++ [10])
  ++ (lit "        </datafield>" ++ [10])
  ++ (lit "        <datafield tag=""050E"">" ++ [10])
  ++ (lit "            <subfield code=""a"">LoC-Na gegen Modern Engl. biogr.</subfield>" ++ [10])
  ++ (lit "        </datafield>" ++ [10])
  ++ (lit "        <datafield tag=""050E"">" ++ [10])
  ++ (lit "            <subfield code=""a"">https://de.wikipedia.org/wiki/Ada_Lovelace</subfield>" ++ [10])
  ++ (lit "        </datafield>" ++ [10])
  ++ (lit "        <datafield tag=""050E"">" ++ [10])
  ++ (lit "            <subfield code=""a"">LCAuth, (OGND)</subfield>" ++ [10])
  ++ (lit "        </datafield>" ++ [10])
  ++ (lit "        <datafield tag=""050G"">" ++ [10])
  ++ (lit "            <subfield code=""b"">Brit. Mathematikerin; Countess of Lovelace</subfield>" ++ [10])
  ++ (lit "        </datafield>" ++ [10])
  ++ (lit "        <datafield tag=""050G"">" ++ [10])
  ++ (lit "            <subfield code=""b"">Informatikerin, Mathematikerin, Grossbritannien</subfield>" ++ [10])
  ++ (lit "        </datafield>" ++ [10])
  ++ (lit "        <datafield tag=""060R"">" ++ [10])
  ++ (lit "            <subfield code=""a"">10.12.1815</subfield>" ++ [10])
  ++ (lit "            <subfield code=""b"">27.12.1852</subfield>" ++ [10])
  ++ (lit "            <subfield code=""4"">datx</subfield>" ++ [10])
  ++ (lit "        </datafield>" ++ [10])
  ++ (lit "        <datafield tag=""060R"">" ++ [10])
  ++ (lit "            <subfield code=""a"">1815</subfield>" ++ [10])
  ++ (lit "            <subfield code=""b"">1852</subfield>" ++ [10])
  ++ (lit "            <subfield code=""4"">datl</subfield>" ++ [10])
  ++ (lit "        </datafield>" ++ [10])
  ++ (lit "        <datafield tag=""065R"">" ++ [10])
  ++ (lit "            <subfield code=""9"">040743357</subfield>" ++ [10])
  ++ (lit "            <subfield code=""7"">Tgz</subfield>" ++ [10])
  ++ (lit "            <subfield code=""V"">gik</subfield>" ++ [10])
  ++ (lit "            <subfield code=""A"">gnd</subfield>" ++ [10])
  ++ (lit "            <subfield code=""0"">4074335-4</subfield>" ++ [10])
  ++ (lit "            <subfield code=""a"">London</subfield>" ++ [10])
  ++ (lit "            <subfield code=""4"">ortg</subfield>" ++ [10])
  ++ (lit "        </datafield>" ++ [10])
  ++ (lit "        <datafield tag=""065R"">" ++ [10])
  ++ (lit "            <subfield code=""9"">040743357</subfield>" ++ [10])
  ++ (lit "            <subfield code=""7"">Tgz</subfield>" ++ [10])
  ++ (lit "            <subfield code=""V"">gik</subfield>" ++ [10])
  ++ (lit "            <subfield code=""A"">gnd</subfield>" ++ [10])
  ++ (lit "            <subfield code=""0"">4074335-4</subfield>" ++ [10])
  ++ (lit "            <subfield code=""a"">London</subfield>" ++ [10])
  ++ (lit "            <subfield code=""4"">orts</subfield>" ++ [10])
  ++ (lit "        </datafield>" ++ [10])
  ++ (lit "        <datafield tag=""070A"">" ++ [10])
  ++ (lit "            <subfield code=""0"">(DE-588)119232022</subfield>" ++ [10])
  ++ (lit "        </datafield>" ++ [10])
  ++ (lit "    </record>" ++ [10])
  ++ lit "</collection>".

(** /repo/tests/data/algebra.txt *)
Definition algebra_txt : bytes :=
  (lit "001A $0 1250:01-07-88" ++ [10])
  ++ (lit "001B $0 1250:24-04-19 $t 15:55:35.000" ++ [10])
  ++ (lit "001D $0 9999:17-01-09" ++ [10])
  ++ (lit "001U $0 utf8" ++ [10])
  ++ (lit "001X $0 0" ++ [10])
  ++ (lit "002@ $0 Ts1" ++ [10])
  ++ (lit "003@ $0 040011569" ++ [10])
  ++ (lit "003U $a http://d-nb.info/gnd/4001156-2" ++ [10])
  ++ (lit "004B $a saz" ++ [10])
  ++ (lit "007K $a gnd $0 4001156-2" ++ [10])
  ++ (lit "007N $a swd $0 4001156-2 $v zg" ++ [10])
  ++ (lit "008A $a s" ++ [10])
  ++ (lit "008B $a w $a z $a o" ++ [10])
  ++ (lit "037G $c 512 $d 3 $t 2007-01-01" ++ [10])
  ++ (lit "041@ $a Axiomatische Algebra" ++ [10])
  ++ (lit "041@ $a Formale Algebra" ++ [10])
  ++ (lit "041@ $a Höhere Algebra" ++ [10])
  ++ (lit "041A $a Algebra" ++ [10])
  ++ (lit "041P $a Algebra $u http://lccn.loc.gov/sh85003425 $S DLC $0 sh 85003425 $2 lcsh $v MACS-Mapping. Bitte keine Änderungen vornehmen." ++ [10])
  ++ (lit "041P $a Algèbre $u http://data.bnf.fr/11930858 $S FrPBN $0 FRBNF119308582 $2 ram $v MACS-Mapping. Bitte keine Änderungen vornehmen." ++ [10])
  ++ (lit "041R $9 040379442 $7 Tsz $V saz $A gnd $0 4037944-9 $a Mathematik $4 obal" ++ [10])
  ++ (lit "042A $a 28" ++ [10])
  ++ (lit "047A/03 $e DE-101" ++ [10])
  ++ (lit "047A/03 $r DE-101" ++ [10])
  ++ (lit "047C $S swd $i s $a Algebra $0 4001156-2" ++ [10])
  ++ (lit "050E $a M, Au=DB" ++ [10])
  ++ (lit "050H $a ohne Unterscheidung für die Disziplin der Mathematik und die Algebraische Struktur" ++ [10])
  ++ (lit "070A/02 $S MACS $0 0000478" ++ [10])
  ++ [10].

(** /repo/tests/data/samples.dat, line 1 *)
Definition sample_1 : bytes :=
  (lit "001A " ++ [31] ++ lit "01250:01-07-88" ++ [30])
  ++ (lit "001B " ++ [31] ++ lit "01764:21-09-22" ++ [31] ++ lit "t11:51:20.000" ++ [30])
  ++ (lit "001D " ++ [31] ++ lit "09999:17-01-09" ++ [30])
  ++ (lit "001U " ++ [31] ++ lit "0utf8" ++ [30])
  ++ (lit "001X " ++ [31] ++ lit "00" ++ [30])
  ++ (lit "002@ " ++ [31] ++ lit "0Tu1" ++ [30])
  ++ (lit "003@ " ++ [31] ++ lit "0040991989" ++ [30])
  ++ (lit "003U " ++ [31] ++ lit "ahttp://d-nb.info/gnd/4099198-2" ++ [31] ++ lit "zhttp://d-nb.info/gnd/1214756980" ++ [30])
  ++ (lit "004B " ++ [31] ++ lit "awit" ++ [30])
  ++ (lit "007K " ++ [31] ++ lit "agnd" ++ [31] ++ lit "04099198-2" ++ [30])
  ++ (lit "007N " ++ [31] ++ lit "agnd" ++ [31] ++ lit "01214756980" ++ [30])
  ++ (lit "007N " ++ [31] ++ lit "aswd" ++ [31] ++ lit "04099198-2" ++ [31] ++ lit "vzg" ++ [30])
  ++ (lit "008A " ++ [31] ++ lit "as" ++ [31] ++ lit "af" ++ [30])
  ++ (lit "008B " ++ [31] ++ lit "aw" ++ [31] ++ lit "ao" ++ [31] ++ lit "av" ++ [30])
  ++ (lit "010E " ++ [31] ++ lit "erda" ++ [30])
  ++ (lit "022@ " ++ [31] ++ lit "aFaust II" ++ [31] ++ lit "5DE-32" ++ [31] ++ lit "vISO639: ger" ++ [30])
  ++ (lit "022@ " ++ [31] ++ lit "aFaust. 2. Teil" ++ [31] ++ lit "5DE-32" ++ [31] ++ lit "vISO639: ger" ++ [30])
  ++ (lit "022@ " ++ [31] ++ lit "aFaust. Zweiter Teil" ++ [31] ++ lit "5DE-32" ++ [31] ++ lit "vISO639: ger" ++ [30])
  ++ (lit "022@ " ++ [31] ++ lit "aFaust : Teil II" ++ [31] ++ lit "5DE-32" ++ [31] ++ lit "vISO639: ger" ++ [30])
  ++ (lit "022@ " ++ [31] ++ lit "aFaust : der Tragödie zweiter Teil" ++ [31] ++ lit "5DE-32" ++ [31] ++ lit "vISO639: ger" ++ [30])
  ++ (lit "022@ " ++ [31] ++ lit "aP̕austi" ++ [31] ++ lit "n2" ++ [30])
  ++ (lit "022@ " ++ [31] ++ lit "aFaust : The Second Part of the Tragedy" ++ [31] ++ lit "vISO639: eng" ++ [30])
  ++ (lit "022@ " ++ [31] ++ lit "aLe @second Faust" ++ [31] ++ lit "vISO639: fre" ++ [30])
  ++ (lit "022@ " ++ [31] ++ lit "aIl @secondo Faust" ++ [31] ++ lit "vISO639: ita" ++ [30])
  ++ (lit "022@ " ++ [31] ++ lit "aFaust : Druhý díl tragédie" ++ [31] ++ lit "vISO639: cze" ++ [30])
  ++ (lit "022@ " ++ [31] ++ lit "aFaust : tragedii część pierwsza i druga" ++ [31] ++ lit "vISO639: pol" ++ [30])
  ++ (lit "022@ " ++ [31] ++ lit "aFaust : partea întîi si partea a doua a tragediei" ++ [31] ++ lit "vISO639: rum" ++ [30])
  ++ (lit "022@ " ++ [31] ++ lit "aFaust drugi deo" ++ [31] ++ lit "vISO639: hrv" ++ [30])
  ++ (lit "022@ " ++ [31] ++ lit "aFaust : tragedianın ikinci bölümü" ++ [31] ++ lit "vISO639: tur" ++ [30])
  ++ (lit "022@ " ++ [31] ++ lit "aPhaust : meros 2" ++ [31] ++ lit "vISO639: gre" ++ [30])
  ++ (lit "022A " ++ [31] ++ lit "aFaust" ++ [31] ++ lit "n2" ++ [30])
  ++ (lit "022R " ++ [31] ++ lit "9041281403" ++ [31] ++ lit "7Tpz" ++ [31] ++ lit "Vpiz" ++ [31] ++ lit "Agnd" ++ [31] ++ lit "0118540238" ++ [31] ++ lit "E1749" ++ [31] ++ lit "G1832" ++ [31] ++ lit "dJohann Wolfgang" ++ [31] ++ lit "aGoethe" ++ [31] ++ lit "cvon" ++ [31] ++ lit "7Tu1" ++ [31] ++ lit "Vwit" ++ [31] ++ lit "Agnd" ++ [31] ++ lit "04128140-8" ++ [31] ++ lit "tFaust" ++ [31] ++ lit "4obpa" ++ [31] ++ lit "vEnthalten in" ++ [30])
  ++ (lit "022R " ++ [31] ++ lit "9040991970" ++ [31] ++ lit "7Tpz" ++ [31] ++ lit "Vpiz" ++ [31] ++ lit "Agnd" ++ [31] ++ lit "0118540238" ++ [31] ++ lit "E1749" ++ [31] ++ lit "G1832" ++ [31] ++ lit "dJohann Wolfgang" ++ [31] ++ lit "aGoethe" ++ [31] ++ lit "cvon" ++ [31] ++ lit "7Tu1" ++ [31] ++ lit "Vwit" ++ [31] ++ lit "Agnd" ++ [31] ++ lit "04099197-0" ++ [31] ++ lit "tFaust" ++ [31] ++ lit "n1" ++ [31] ++ lit "4rela" ++ [31] ++ lit "vVervollständigt durch" ++ [30])
  ++ (lit "022R " ++ [31] ++ lit "9121553972X" ++ [31] ++ lit "7Tpz" ++ [31] ++ lit "Vpiz" ++ [31] ++ lit "Agnd" ++ [31] ++ lit "0118540238" ++ [31] ++ lit "E1749" ++ [31] ++ lit "G1832" ++ [31] ++ lit "dJohann Wolfgang" ++ [31] ++ lit "aGoethe" ++ [31] ++ lit "cvon" ++ [31] ++ lit "7Tu1" ++ [31] ++ lit "Vwit" ++ [31] ++ lit "Agnd" ++ [31] ++ lit "0121553972X" ++ [31] ++ lit "tFaust" ++ [31] ++ lit "n2., 1" ++ [31] ++ lit "4rela" ++ [31] ++ lit "vEnthält" ++ [30])
  ++ (lit "022R " ++ [31] ++ lit "9956264700" ++ [31] ++ lit "7Tpz" ++ [31] ++ lit "Vpiz" ++ [31] ++ lit "Agnd" ++ [31] ++ lit "0118540238" ++ [31] ++ lit "E1749" ++ [31] ++ lit "G1832" ++ [31] ++ lit "dJohann Wolfgang" ++ [31] ++ lit "aGoethe" ++ [31] ++ lit "cvon" ++ [31] ++ lit "7Tu1" ++ [31] ++ lit "Vwit" ++ [31] ++ lit "Agnd" ++ [31] ++ lit "04540579-7" ++ [31] ++ lit "tKlassische Walpurgisnacht" ++ [31] ++ lit "4rela" ++ [31] ++ lit "vEnthält" ++ [30])
  ++ (lit "022R " ++ [31] ++ lit "9041998316" ++ [31] ++ lit "7Tpz" ++ [31] ++ lit "Vpiz" ++ [31] ++ lit "Agnd" ++ [31] ++ lit "0118540238" ++ [31] ++ lit "E1749" ++ [31] ++ lit "G1832" ++ [31] ++ lit "dJohann Wolfgang" ++ [31] ++ lit "aGoethe" ++ [31] ++ lit "cvon" ++ [31] ++ lit "7Tu1" ++ [31] ++ lit "Vwit" ++ [31] ++ lit "Agnd" ++ [31] ++ lit "04199831-5" ++ [31] ++ lit "tFaust" ++ [31] ++ lit "n2., 1-2" ++ [31] ++ lit "4rela" ++ [31] ++ lit "vEnthält" ++ [30])
  ++ (lit "022R " ++ [31] ++ lit "9954174143" ++ [31] ++ lit "7Tpz" ++ [31] ++ lit "Vpiz" ++ [31] ++ lit "Agnd" ++ [31] ++ lit "0118540238" ++ [31] ++ lit "E1749" ++ [31] ++ lit "G1832" ++ [31] ++ lit "dJohann Wolfgang" ++ [31] ++ lit "aGoethe" ++ [31] ++ lit "cvon" ++ [31] ++ lit "7Tu1" ++ [31] ++ lit "Vwit" ++ [31] ++ lit "Agnd" ++ [31] ++ lit "04509569-3" ++ [31] ++ lit "tFaust" ++ [31] ++ lit "n2., 3" ++ [31] ++ lit "4rela" ++ [31] ++ lit "vEnthält" ++ [30])
  ++ (lit "022R " ++ [31] ++ lit "9041998308" ++ [31] ++ lit "7Tpz" ++ [31] ++ lit "Vpiz" ++ [31] ++ lit "Agnd" ++ [31] ++ lit "0118540238" ++ [31] ++ lit "E1749" ++ [31] ++ lit "G1832" ++ [31] ++ lit "dJohann Wolfgang" ++ [31] ++ lit "aGoethe" ++ [31] ++ lit "cvon" ++ [31] ++ lit "7Tu1" ++ [31] ++ lit "Vwit" ++ [31] ++ lit "Agnd" ++ [31] ++ lit "04199830-3" ++ [31] ++ lit "tFaust" ++ [31] ++ lit "n2., 4" ++ [31] ++ lit "4rela" ++ [31] ++ lit "vEnthält" ++ [30])
  ++ (lit "022R " ++ [31] ++ lit "9041355296" ++ [31] ++ lit "7Tpz" ++ [31] ++ lit "Vpiz" ++ [31] ++ lit "Agnd" ++ [31] ++ lit "0118540238" ++ [31] ++ lit "E1749" ++ [31] ++ lit "G1832" ++ [31] ++ lit "dJohann Wolfgang" ++ [31] ++ lit "aGoethe" ++ [31] ++ lit "cvon" ++ [31] ++ lit "7Tu1" ++ [31] ++ lit "Vwit" ++ [31] ++ lit "Agnd" ++ [31] ++ lit "04135529-5" ++ [31] ++ lit "tFaust" ++ [31] ++ lit "n2., 5" ++ [31] ++ lit "4rela" ++ [31] ++ lit "vEnthält" ++ [30])
  ++ (lit "022R " ++ [31] ++ lit "9940176696" ++ [31] ++ lit "7Tpz" ++ [31] ++ lit "Vpiz" ++ [31] ++ lit "Agnd" ++ [31] ++ lit "0118540238" ++ [31] ++ lit "E1749" ++ [31] ++ lit "G1832" ++ [31] ++ lit "dJohann Wolfgang" ++ [31] ++ lit "aGoethe" ++ [31] ++ lit "cvon" ++ [31] ++ lit "7Tu1" ++ [31] ++ lit "Vwit" ++ [31] ++ lit "Agnd" ++ [31] ++ lit "04330279-8" ++ [31] ++ lit "tFaust" ++ [31] ++ lit "n2" ++ [31] ++ lit "pBergschluchten" ++ [31] ++ lit "4rela" ++ [31] ++ lit "vEnthält" ++ [30])
  ++ (lit "022R " ++ [31] ++ lit "91217628304" ++ [31] ++ lit "7Tpz" ++ [31] ++ lit "Vpiz" ++ [31] ++ lit "Agnd" ++ [31] ++ lit "0118540238" ++ [31] ++ lit "E1749" ++ [31] ++ lit "G1832" ++ [31] ++ lit "dJohann Wolfgang" ++ [31] ++ lit "aGoethe" ++ [31] ++ lit "cvon" ++ [31] ++ lit "7Tu1" ++ [31] ++ lit "Vwit" ++ [31] ++ lit "Agnd" ++ [31] ++ lit "01217628304" ++ [31] ++ lit "tZum Sehen geboren" ++ [31] ++ lit "4rela" ++ [31] ++ lit "vEnthält" ++ [30])
  ++ (lit "022R " ++ [31] ++ lit "91248949218" ++ [31] ++ lit "7Tp3" ++ [31] ++ lit "Vpiz" ++ [31] ++ lit "Agnd" ++ [31] ++ lit "01043580441" ++ [31] ++ lit "E1854" ++ [31] ++ lit "G1923" ++ [31] ++ lit "dEugène" ++ [31] ++ lit "aAdenis" ++ [31] ++ lit "7Tu3" ++ [31] ++ lit "Vwit" ++ [31] ++ lit "Agnd" ++ [31] ++ lit "01248949218" ++ [31] ++ lit "tFaust et Hélène" ++ [31] ++ lit "4rela" ++ [31] ++ lit "vAnregung für" ++ [30])
  ++ (lit "022R " ++ [31] ++ lit "91216848203" ++ [31] ++ lit "7Tp1" ++ [31] ++ lit "Vpiz" ++ [31] ++ lit "Agnd" ++ [31] ++ lit "0118508210" ++ [31] ++ lit "E1884" ++ [31] ++ lit "G1950" ++ [31] ++ lit "dMax" ++ [31] ++ lit "aBeckmann" ++ [31] ++ lit "7Tu3" ++ [31] ++ lit "Vwit" ++ [31] ++ lit "Agnd" ++ [31] ++ lit "01216848203" ++ [31] ++ lit "t143 Federzeichnungen zu Goethes Faust II" ++ [31] ++ lit "4rela" ++ [31] ++ lit "vIllustrationen" ++ [30])
  ++ (lit "022R " ++ [31] ++ lit "91248948580" ++ [31] ++ lit "7Tp1" ++ [31] ++ lit "Vpiz" ++ [31] ++ lit "Agnd" ++ [31] ++ lit "0118524917" ++ [31] ++ lit "E1894" ++ [31] ++ lit "G1979" ++ [31] ++ lit "dPaul" ++ [31] ++ lit "aDessau" ++ [31] ++ lit "7Tu3" ++ [31] ++ lit "Vwim" ++ [31] ++ lit "Agnd" ++ [31] ++ lit "01248948580" ++ [31] ++ lit "tFaust II" ++ [31] ++ lit "4rela" ++ [31] ++ lit "vBühnenmusik" ++ [30])
  ++ (lit "022R " ++ [31] ++ lit "91248948726" ++ [31] ++ lit "7Tp1" ++ [31] ++ lit "Vpiz" ++ [31] ++ lit "Agnd" ++ [31] ++ lit "012462376X" ++ [31] ++ lit "E1923" ++ [31] ++ lit "G2001" ++ [31] ++ lit "dWerner" ++ [31] ++ lit "aHaentjes" ++ [31] ++ lit "7Tu3" ++ [31] ++ lit "Vwim" ++ [31] ++ lit "Agnd" ++ [31] ++ lit "01248948726" ++ [31] ++ lit "tFaust II" ++ [31] ++ lit "4rela" ++ [31] ++ lit "vBühnenmusik" ++ [30])
  ++ (lit "022R " ++ [31] ++ lit "91250292204" ++ [31] ++ lit "7Tp1" ++ [31] ++ lit "Vpiz" ++ [31] ++ lit "Agnd" ++ [31] ++ lit "0121302490" ++ [31] ++ lit "E1815" ++ [31] ++ lit "G1873" ++ [31] ++ lit "dHenry Hugo" ++ [31] ++ lit "aPierson" ++ [31] ++ lit "7Tu3" ++ [31] ++ lit "Vwim" ++ [31] ++ lit "Agnd" ++ [31] ++ lit "01250292204" ++ [31] ++ lit "tMusik zu Goethe’s Faust, zweiter Theil" ++ [31] ++ lit "4rela" ++ [31] ++ lit "vBühnenmusik" ++ [30])
  ++ (lit "022R " ++ [31] ++ lit "91248949501" ++ [31] ++ lit "7Tp1" ++ [31] ++ lit "Vpiz" ++ [31] ++ lit "Agnd" ++ [31] ++ lit "0117484458" ++ [31] ++ lit "E1906" ++ [31] ++ lit "G1990" ++ [31] ++ lit "dMarc André" ++ [31] ++ lit "aSouchay" ++ [31] ++ lit "7Tu3" ++ [31] ++ lit "Vwim" ++ [31] ++ lit "Agnd" ++ [31] ++ lit "01248949501" ++ [31] ++ lit "tFaust und Helena" ++ [31] ++ lit "4rela" ++ [31] ++ lit "vBearbeitet als Oper" ++ [30])
  ++ (lit "028R " ++ [31] ++ lit "9118540238" ++ [31] ++ lit "7Tpz" ++ [31] ++ lit "Vpiz" ++ [31] ++ lit "Agnd" ++ [31] ++ lit "0118540238" ++ [31] ++ lit "E1749" ++ [31] ++ lit "G1832" ++ [31] ++ lit "dJohann Wolfgang" ++ [31] ++ lit "aGoethe" ++ [31] ++ lit "cvon" ++ [31] ++ lit "4aut1" ++ [30])
  ++ (lit "032W " ++ [31] ++ lit "9040128997" ++ [31] ++ lit "7Tsz" ++ [31] ++ lit "Vsaz" ++ [31] ++ lit "Agnd" ++ [31] ++ lit "04012899-4" ++ [31] ++ lit "aDrama" ++ [30])
  ++ (lit "037G " ++ [31] ++ lit "c832.6" ++ [31] ++ lit "t2012-08-13" ++ [30])
  ++ (lit "041R " ++ [31] ++ lit "9040309606" ++ [31] ++ lit "7Ts1" ++ [31] ++ lit "Vsaz" ++ [31] ++ lit "Agnd" ++ [31] ++ lit "04030960-5" ++ [31] ++ lit "aKlassik" ++ [31] ++ lit "4obal" ++ [30])
  ++ (lit "042A " ++ [31] ++ lit "a12.2p" ++ [30])
  ++ (lit "042B " ++ [31] ++ lit "aXA-DE" ++ [30])
  ++ (lit "042C " ++ [31] ++ lit "ager" ++ [30])
  ++ (lit "047A/03 " ++ [31] ++ lit "eDE-101" ++ [30])
  ++ (lit "047A/03 " ++ [31] ++ lit "rDE-101" ++ [30])
  ++ (lit "047C " ++ [31] ++ lit "Sswd" ++ [31] ++ lit "ipt" ++ [31] ++ lit "aGoethe, Johann Wolfgang {von: Faust II" ++ [31] ++ lit "04099198-2" ++ [30])
  ++ (lit "050C " ++ [31] ++ lit "aFaust I und II gelten als 2 Teile eines Gesamtwerkes Faust, daher die Zählung beim bevorzugten Titel" ++ [30])
  ++ (lit "050C " ++ [31] ++ lit "aWerktitel als Wissensraum" ++ [31] ++ lit "5DE-32" ++ [30])
  ++ (lit "050E " ++ [31] ++ lit "aKindler (3. Aufl.)" ++ [30])
  ++ (lit "050E " ++ [31] ++ lit "aMeid, V.: Metzler Literatur Chronik. - 2006" ++ [30])
  ++ (lit "050E " ++ [31] ++ lit "aStein, P.; H. Stein: Chronik der deutschen Literatur. - 2008" ++ [30])
  ++ (lit "050E " ++ [31] ++ lit "aDeutsches Textarchiv" ++ [31] ++ lit "bStand: 05.07.2017" ++ [31] ++ lit "uhttp://www.deutschestextarchiv.de/goethe_faust02_1832" ++ [30])
  ++ (lit "050E " ++ [31] ++ lit "aGoethe, Johann Wolfgang: Poetische Werke (Berliner Ausgabe) ; Bd. 8. - 1965, S. 301ff und S. 850ff" ++ [30])
  ++ (lit "050E " ++ [31] ++ lit "aWikipedia" ++ [31] ++ lit "bStand: 25.11.2020" ++ [31] ++ lit "uhttps://de.wikipedia.org/w/index.php?title=Faust._Der_Tragödie_zweiter_Teil&oldid=205252571" ++ [30])
  ++ (lit "050G " ++ [31] ++ lit "bZeit- und Sachbezug: zweiter Teil des Goetheschen Faust-Dramas im Anschluß an den ersten Teil (1808) in 5 Akten. Bereits ab 1800 konzipiert, ab 1825 umfassend ausgearbeitet." ++ [30])
  ++ (lit "050G " ++ [31] ++ lit "bInhalt: das fortgesetzte Streben Fausts nach Erkenntnis und Genuß, nun in der großen Welt (Erster Akt: Kaiserliche Pfalz ; Zweiter Akt: Hochgewölbtes gotisches Zimmer. Klassische Walpurgisnacht ; Dritter Akt: Palast des Menelas (Helena-Tragödie) ; Vierter Akt: Hochgebirg. Auf dem Vorgebirg. Gegenkaisers Zelt ; Fünfter Akt: Offene Gegend. Palast. Tiefe Nacht. Mittternacht. Großer Vorhof des Palasts. Grablegung. Bergschluchten. Zum Schluss kann Faust letztendlich doch Erlösung finden. Engelschor: ""Wer immer strebend sich bemüht, den werden wir erlösen""." ++ [30])
  ++ (lit "050G " ++ [31] ++ lit "bÜberlieferung: Erstdruck 1832 in der Ausgabe letzter Hand (Nachlaßband 1). 1852 durch Eckermann erstmals inszeniert (1. Akt)." ++ [30])
  ++ (lit "060R " ++ [31] ++ lit "c1832" ++ [31] ++ lit "4datj" ++ [30])
  ++ (lit "060R " ++ [31] ++ lit "a1825" ++ [31] ++ lit "b1831" ++ [31] ++ lit "4dats" ++ [30])
  ++ [10].

(** /repo/tests/data/samples.dat, line 2 *)
Definition sample_2 : bytes :=
  (lit "001A " ++ [31] ++ lit "01250:01-07-88" ++ [30])
  ++ (lit "001B " ++ [31] ++ lit "01764:01-07-22" ++ [31] ++ lit "t18:43:39.000" ++ [30])
  ++ (lit "001D " ++ [31] ++ lit "09999:17-01-09" ++ [30])
  ++ (lit "001U " ++ [31] ++ lit "0utf8" ++ [30])
  ++ (lit "001X " ++ [31] ++ lit "00" ++ [30])
  ++ (lit "002@ " ++ [31] ++ lit "0Tu1" ++ [30])
  ++ (lit "003@ " ++ [31] ++ lit "0041274377" ++ [30])
  ++ (lit "003U " ++ [31] ++ lit "ahttp://d-nb.info/gnd/4127437-4" ++ [30])
  ++ (lit "004B " ++ [31] ++ lit "awit" ++ [30])
  ++ (lit "007K " ++ [31] ++ lit "agnd" ++ [31] ++ lit "04127437-4" ++ [30])
  ++ (lit "007N " ++ [31] ++ lit "aswd" ++ [31] ++ lit "04127437-4" ++ [31] ++ lit "vzg" ++ [30])
  ++ (lit "008A " ++ [31] ++ lit "as" ++ [31] ++ lit "af" ++ [30])
  ++ (lit "008B " ++ [31] ++ lit "aw" ++ [31] ++ lit "ao" ++ [31] ++ lit "av" ++ [30])
  ++ (lit "010E " ++ [31] ++ lit "erda" ++ [30])
  ++ (lit "022@ " ++ [31] ++ lit "aFaust a Margaréta" ++ [31] ++ lit "vISO639: slo" ++ [30])
  ++ (lit "022@ " ++ [31] ++ lit "aFaust, frühere Fassung (""Urfaust"")" ++ [31] ++ lit "vISO639: ger" ++ [30])
  ++ (lit "022@ " ++ [31] ++ lit "aFaust in der ursprünglichen Gestalt" ++ [31] ++ lit "vISO639: ger" ++ [30])
  ++ (lit "022@ " ++ [31] ++ lit "aFaust in ursprünglicher Gestalt" ++ [31] ++ lit "vISO639: ger" ++ [30])
  ++ (lit "022@ " ++ [31] ++ lit "aFausto zero" ++ [31] ++ lit "vISO639: por" ++ [30])
  ++ (lit "022@ " ++ [31] ++ lit "aGoethes Faust in ursprünglicher dichterischer Gestalt (der Urfaust)" ++ [31] ++ lit "vISO639: ger" ++ [30])
  ++ (lit "022@ " ++ [31] ++ lit "aGoethes Faust in ursprünglicher Gestalt nach der Göchhausenschen Abschrift" ++ [31] ++ lit "vISO639: ger" ++ [30])
  ++ (lit "022@ " ++ [31] ++ lit "aGoethes Faust in ursprünglicher Gestalt (Urfaust)" ++ [31] ++ lit "vISO639: ger" ++ [30])
  ++ (lit "022@ " ++ [31] ++ lit "aGoethes Faust in ursprünglicher Gestalt" ++ [31] ++ lit "vISO639: ger" ++ [30])
  ++ (lit "022@ " ++ [31] ++ lit "aGoethes Faust nach ältester Aufzeichnung 1771-1775" ++ [31] ++ lit "vISO639: ger" ++ [30])
  ++ (lit "022@ " ++ [31] ++ lit "aDe @Oer-Faust" ++ [31] ++ lit "vISO639: dut" ++ [30])
  ++ (lit "022@ " ++ [31] ++ lit "aŐs-Faust" ++ [31] ++ lit "vISO639: hun" ++ [30])
  ++ (lit "022@ " ++ [31] ++ lit "aPrafaust" ++ [31] ++ lit "vISO639: hrv" ++ [30])
  ++ (lit "022@ " ++ [31] ++ lit "aPrafaust (Faust a Margaréta)" ++ [30])
  ++ (lit "022@ " ++ [31] ++ lit "aDer @Urfaust" ++ [31] ++ lit "vISO639: ger" ++ [30])
  ++ (lit "022@ " ++ [31] ++ lit "aThe @Urfaust" ++ [31] ++ lit "vISO639: eng" ++ [30])
  ++ (lit "022@ " ++ [31] ++ lit "aDer @Ur-Faust" ++ [31] ++ lit "vISO639: ger" ++ [30])
  ++ (lit "022@ " ++ [31] ++ lit "a(Ur)Faust" ++ [31] ++ lit "vISO639: dan" ++ [30])
  ++ (lit "022A " ++ [31] ++ lit "aUrfaust" ++ [30])
  ++ (lit "022R " ++ [31] ++ lit "9964262134" ++ [31] ++ lit "7Tpz" ++ [31] ++ lit "Vpiz" ++ [31] ++ lit "Agnd" ++ [31] ++ lit "0118540238" ++ [31] ++ lit "E1749" ++ [31] ++ lit "G1832" ++ [31] ++ lit "dJohann Wolfgang" ++ [31] ++ lit "aGoethe" ++ [31] ++ lit "cvon" ++ [31] ++ lit "7Tu1" ++ [31] ++ lit "Vwit" ++ [31] ++ lit "Agnd" ++ [31] ++ lit "04682136-3" ++ [31] ++ lit "tFaust. Ein Fragment" ++ [31] ++ lit "4nach" ++ [31] ++ lit "vGefolgt von" ++ [30])
  ++ (lit "022R " ++ [31] ++ lit "9041281403" ++ [31] ++ lit "7Tpz" ++ [31] ++ lit "Vpiz" ++ [31] ++ lit "Agnd" ++ [31] ++ lit "0118540238" ++ [31] ++ lit "E1749" ++ [31] ++ lit "G1832" ++ [31] ++ lit "dJohann Wolfgang" ++ [31] ++ lit "aGoethe" ++ [31] ++ lit "cvon" ++ [31] ++ lit "7Tu1" ++ [31] ++ lit "Vwit" ++ [31] ++ lit "Agnd" ++ [31] ++ lit "04128140-8" ++ [31] ++ lit "tFaust" ++ [31] ++ lit "4nach" ++ [31] ++ lit "vGefolgt von" ++ [30])
  ++ (lit "022R " ++ [31] ++ lit "9955256321" ++ [31] ++ lit "7Tpz" ++ [31] ++ lit "Vpiz" ++ [31] ++ lit "Agnd" ++ [31] ++ lit "0118540238" ++ [31] ++ lit "E1749" ++ [31] ++ lit "G1832" ++ [31] ++ lit "dJohann Wolfgang" ++ [31] ++ lit "aGoethe" ++ [31] ++ lit "cvon" ++ [31] ++ lit "7Tu1" ++ [31] ++ lit "Vwit" ++ [31] ++ lit "Agnd" ++ [31] ++ lit "04524379-7" ++ [31] ++ lit "tFaust" ++ [31] ++ lit "n1" ++ [31] ++ lit "pAch neige, du Schmerzensreiche" ++ [31] ++ lit "4rela" ++ [31] ++ lit "vEnthält" ++ [30])
  ++ (lit "022R " ++ [31] ++ lit "91233492144" ++ [31] ++ lit "7Tp3" ++ [31] ++ lit "Vpiz" ++ [31] ++ lit "Agnd" ++ [31] ++ lit "01220468037" ++ [31] ++ lit "E1943" ++ [31] ++ lit "G2006" ++ [31] ++ lit "dGünter" ++ [31] ++ lit "aSchimm" ++ [31] ++ lit "7Tu3" ++ [31] ++ lit "Vwim" ++ [31] ++ lit "Agnd" ++ [31] ++ lit "01233492144" ++ [31] ++ lit "tUrfaust" ++ [31] ++ lit "4rela" ++ [31] ++ lit "vSchauspielmusik" ++ [30])
  ++ (lit "022R " ++ [31] ++ lit "91248572998" ++ [31] ++ lit "7Tp1" ++ [31] ++ lit "Vpiz" ++ [31] ++ lit "Agnd" ++ [31] ++ lit "0118524917" ++ [31] ++ lit "E1894" ++ [31] ++ lit "G1979" ++ [31] ++ lit "dPaul" ++ [31] ++ lit "aDessau" ++ [31] ++ lit "7Tu3" ++ [31] ++ lit "Vwim" ++ [31] ++ lit "Agnd" ++ [31] ++ lit "01248572998" ++ [31] ++ lit "tUrfaust" ++ [31] ++ lit "4rela" ++ [31] ++ lit "vSchauspielmusik" ++ [30])
  ++ (lit "022R " ++ [31] ++ lit "91248573048" ++ [31] ++ lit "7Tp1" ++ [31] ++ lit "Vpiz" ++ [31] ++ lit "Agnd" ++ [31] ++ lit "011852397X" ++ [31] ++ lit "E1895" ++ [31] ++ lit "G1977" ++ [31] ++ lit "dJohann Nepomuk" ++ [31] ++ lit "aDavid" ++ [31] ++ lit "7Tu3" ++ [31] ++ lit "Vwim" ++ [31] ++ lit "Agnd" ++ [31] ++ lit "01248573048" ++ [31] ++ lit "tUrfaust" ++ [31] ++ lit "4rela" ++ [31] ++ lit "vSchauspielmusik" ++ [30])
  ++ (lit "022R " ++ [31] ++ lit "91248573102" ++ [31] ++ lit "7Tp1" ++ [31] ++ lit "Vpiz" ++ [31] ++ lit "Agnd" ++ [31] ++ lit "0103785795" ++ [31] ++ lit "E1945" ++ [31] ++ lit "dRóbert" ++ [31] ++ lit "aWittinger" ++ [31] ++ lit "7Tu3" ++ [31] ++ lit "Vwim" ++ [31] ++ lit "Agnd" ++ [31] ++ lit "01248573102" ++ [31] ++ lit "tUrfaust" ++ [31] ++ lit "4rela" ++ [31] ++ lit "vSchauspielmusik" ++ [30])
  ++ (lit "022R " ++ [31] ++ lit "91248573110" ++ [31] ++ lit "7Tp1" ++ [31] ++ lit "Vpip" ++ [31] ++ lit "Agnd" ++ [31] ++ lit "0118729179" ++ [31] ++ lit "E1902" ++ [31] ++ lit "G1985" ++ [31] ++ lit "dMark" ++ [31] ++ lit "aLothar" ++ [31] ++ lit "7Tu3" ++ [31] ++ lit "Vwim" ++ [31] ++ lit "Agnd" ++ [31] ++ lit "01248573110" ++ [31] ++ lit "tUrfaust" ++ [31] ++ lit "4rela" ++ [31] ++ lit "vSchauspielmusik" ++ [30])
  ++ (lit "022R " ++ [31] ++ lit "91248573153" ++ [31] ++ lit "7Tp1" ++ [31] ++ lit "Vpiz" ++ [31] ++ lit "Agnd" ++ [31] ++ lit "0118563572" ++ [31] ++ lit "E1881" ++ [31] ++ lit "G1951" ++ [31] ++ lit "dArmin" ++ [31] ++ lit "aKnab" ++ [31] ++ lit "7Tu3" ++ [31] ++ lit "Vwim" ++ [31] ++ lit "Agnd" ++ [31] ++ lit "01248573153" ++ [31] ++ lit "tUrfaust" ++ [31] ++ lit "4rela" ++ [31] ++ lit "vSchauspielmusik" ++ [30])
  ++ (lit "022R " ++ [31] ++ lit "9124857320X" ++ [31] ++ lit "7Tp1" ++ [31] ++ lit "Vpiz" ++ [31] ++ lit "Agnd" ++ [31] ++ lit "0118991035" ++ [31] ++ lit "E1848" ++ [31] ++ lit "G1907" ++ [31] ++ lit "dCyrill" ++ [31] ++ lit "aKistler" ++ [31] ++ lit "7Tu3" ++ [31] ++ lit "Vwim" ++ [31] ++ lit "Agnd" ++ [31] ++ lit "0124857320X" ++ [31] ++ lit "tFaust I.Tl." ++ [31] ++ lit "4rela" ++ [31] ++ lit "vBearbeitet als Musiktheaterstück" ++ [30])
  ++ (lit "022R " ++ [31] ++ lit "91248573250" ++ [31] ++ lit "7Tp1" ++ [31] ++ lit "Vpiz" ++ [31] ++ lit "Agnd" ++ [31] ++ lit "0121937321" ++ [31] ++ lit "E1928" ++ [31] ++ lit "G2022" ++ [31] ++ lit "dRené" ++ [31] ++ lit "aClemencic" ++ [31] ++ lit "7Tu3" ++ [31] ++ lit "Vwim" ++ [31] ++ lit "Agnd" ++ [31] ++ lit "01248573250" ++ [31] ++ lit "tUrfaust" ++ [31] ++ lit "4rela" ++ [31] ++ lit "vSchauspielmusik" ++ [30])
  ++ (lit "022R " ++ [31] ++ lit "91248573358" ++ [31] ++ lit "7Tp3" ++ [31] ++ lit "Vpiz" ++ [31] ++ lit "Agnd" ++ [31] ++ lit "01114081272" ++ [31] ++ lit "E1941" ++ [31] ++ lit "dHeidemarie" ++ [31] ++ lit "aBöwe" ++ [31] ++ lit "7Tu3" ++ [31] ++ lit "Vwit" ++ [31] ++ lit "Agnd" ++ [31] ++ lit "01248573358" ++ [31] ++ lit "tDer @Urfaust" ++ [31] ++ lit "4rela" ++ [31] ++ lit "vBearbeitet als Hörspiel" ++ [30])
  ++ (lit "022R " ++ [31] ++ lit "91248573382" ++ [31] ++ lit "7Tp3" ++ [31] ++ lit "Vpiz" ++ [31] ++ lit "Agnd" ++ [31] ++ lit "01114081272" ++ [31] ++ lit "E1941" ++ [31] ++ lit "dHeidemarie" ++ [31] ++ lit "aBöwe" ++ [31] ++ lit "7Tu3" ++ [31] ++ lit "Vwit" ++ [31] ++ lit "Agnd" ++ [31] ++ lit "01248573382" ++ [31] ++ lit "tDer @Urfaust" ++ [31] ++ lit "gHörspielmanuskript" ++ [31] ++ lit "4rela" ++ [31] ++ lit "vBearbeitet als Hörspielmanuskript" ++ [30])
  ++ (lit "022R " ++ [31] ++ lit "91248573528" ++ [31] ++ lit "7Tp2" ++ [31] ++ lit "Vpiz" ++ [31] ++ lit "Agnd" ++ [31] ++ lit "0123088275" ++ [31] ++ lit "E1926" ++ [31] ++ lit "G2007" ++ [31] ++ lit "dPeter" ++ [31] ++ lit "aSchulze-Rohr" ++ [31] ++ lit "7Tu3" ++ [31] ++ lit "Vwit" ++ [31] ++ lit "Agnd" ++ [31] ++ lit "01248573528" ++ [31] ++ lit "tDer @Urfaust" ++ [31] ++ lit "4rela" ++ [31] ++ lit "vBearbeitet als Hörspiel" ++ [30])
  ++ (lit "022R " ++ [31] ++ lit "91248573544" ++ [31] ++ lit "7Tp2" ++ [31] ++ lit "Vpiz" ++ [31] ++ lit "Agnd" ++ [31] ++ lit "0123088275" ++ [31] ++ lit "E1926" ++ [31] ++ lit "G2007" ++ [31] ++ lit "dPeter" ++ [31] ++ lit "aSchulze-Rohr" ++ [31] ++ lit "7Tu3" ++ [31] ++ lit "Vwit" ++ [31] ++ lit "Agnd" ++ [31] ++ lit "01248573544" ++ [31] ++ lit "tDer @Urfaust" ++ [31] ++ lit "gHörspielmanuskript" ++ [31] ++ lit "4rela" ++ [31] ++ lit "vBearbeitet als Hörspielmanuskript" ++ [30])
  ++ (lit "022R " ++ [31] ++ lit "91248573579" ++ [31] ++ lit "7Tp1" ++ [31] ++ lit "Vpiz" ++ [31] ++ lit "Agnd" ++ [31] ++ lit "0118502786" ++ [31] ++ lit "E1914" ++ [31] ++ lit "G1980" ++ [31] ++ lit "dAlfred" ++ [31] ++ lit "aAndersch" ++ [31] ++ lit "7Tu3" ++ [31] ++ lit "Vwit" ++ [31] ++ lit "Agnd" ++ [31] ++ lit "01248573579" ++ [31] ++ lit "tUrfaust" ++ [31] ++ lit "4rela" ++ [31] ++ lit "vBearbeitet als Hörspiel" ++ [30])
  ++ (lit "022R " ++ [31] ++ lit "91248573609" ++ [31] ++ lit "7Tp1" ++ [31] ++ lit "Vpiz" ++ [31] ++ lit "Agnd" ++ [31] ++ lit "0118502786" ++ [31] ++ lit "E1914" ++ [31] ++ lit "G1980" ++ [31] ++ lit "dAlfred" ++ [31] ++ lit "aAndersch" ++ [31] ++ lit "7Tu3" ++ [31] ++ lit "Vwit" ++ [31] ++ lit "Agnd" ++ [31] ++ lit "01248573609" ++ [31] ++ lit "tUrfaust" ++ [31] ++ lit "gHörspielmanuskript" ++ [31] ++ lit "4rela" ++ [31] ++ lit "vBearbeitet als Hörspielmanuskript" ++ [30])
  ++ (lit "028R " ++ [31] ++ lit "9118540238" ++ [31] ++ lit "7Tpz" ++ [31] ++ lit "Vpiz" ++ [31] ++ lit "Agnd" ++ [31] ++ lit "0118540238" ++ [31] ++ lit "E1749" ++ [31] ++ lit "G1832" ++ [31] ++ lit "dJohann Wolfgang" ++ [31] ++ lit "aGoethe" ++ [31] ++ lit "cvon" ++ [31] ++ lit "4aut1" ++ [30])
  ++ (lit "032W " ++ [31] ++ lit "9040128997" ++ [31] ++ lit "7Tsz" ++ [31] ++ lit "Vsaz" ++ [31] ++ lit "Agnd" ++ [31] ++ lit "04012899-4" ++ [31] ++ lit "aDrama" ++ [30])
  ++ (lit "041R " ++ [31] ++ lit "9040582744" ++ [31] ++ lit "7Ts1" ++ [31] ++ lit "Vsaz" ++ [31] ++ lit "Agnd" ++ [31] ++ lit "04058274-7" ++ [31] ++ lit "aSturm und Drang" ++ [31] ++ lit "4obal" ++ [30])
  ++ (lit "042A " ++ [31] ++ lit "a12.2p" ++ [30])
  ++ (lit "042B " ++ [31] ++ lit "aXA-DE" ++ [30])
  ++ (lit "042C " ++ [31] ++ lit "ager" ++ [30])
  ++ (lit "047A/03 " ++ [31] ++ lit "eDE-101" ++ [30])
  ++ (lit "047A/03 " ++ [31] ++ lit "rDE-101" ++ [30])
  ++ (lit "047C " ++ [31] ++ lit "Sswd" ++ [31] ++ lit "ipt" ++ [31] ++ lit "aGoethe, Johann Wolfgang {von: Urfaust" ++ [31] ++ lit "04127437-4" ++ [30])
  ++ (lit "050C " ++ [31] ++ lit "aWerktitel als Wissensraum" ++ [31] ++ lit "5DE-32" ++ [30])
  ++ (lit "050E " ++ [31] ++ lit "aGoethe, Johann Wolfgang: Poetische Werke (Berliner Ausgabe), Bd. 8, Berlin 1965, S. 5-143 und S. 795ff" ++ [30])
  ++ (lit "050G " ++ [31] ++ lit "bZeit- und Sachbezug: ursprüngliche Fassung 1774/75, 1775 aus Frankfurt im Manuskript nach Weimar mitgebracht, dort in den geselligen Kreisen vorgelesen, wurde das Manuskript von der Hofdame Luise von Göchhausen abgeschrieben. Diese Abschrift wurde 1887 von Erich Schmidt wieder aufgefunden und veröffentlicht. Das originale Manuskript von Goethe ist dagegen verschollen. - Inhalt: Enthält schon wesentliche Teile der Szenen ""Nacht"", ""Mephisto und Student"", ""Paktszene"" sowie Teile der Gretchen-Tragödie. Die Wette zwischen Faust und Mephisto fehlt, ebenso ""Hexenküche"" und ""Walpurgisnacht"". - Überlieferung: Erstdruck 1887 u.d.T. ""Goethes Faust in ursprünglicher Gestalt nach der Göchhausenschen Abschrift""." ++ [30])
  ++ (lit "060R " ++ [31] ++ lit "c1887" ++ [31] ++ lit "4datj" ++ [30])
  ++ (lit "060R " ++ [31] ++ lit "c1774" ++ [31] ++ lit "4dats" ++ [30])
  ++ [10].

(** /repo/tests/data/samples.dat *)
Definition samples_dat : bytes := sample_1 ++ sample_2.
