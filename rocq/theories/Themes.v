(** Generated by tools/mkthemes.py from gopher_render/code_themes/*.py.
    One table per theme: every [renderers] entry, as a dict literal builds it. *)
From Verif Require Export Parser.
Open Scope Z_scope.

(** code_themes/autumn.py:8-75 [renderers] *)
Definition theme_autumn : table :=
[  ((lit ".highlight .hll"), ([sl (SCombined (SClass (SElement None) (lit "highlight")) (lit " ") (SClass (SElement None) (lit "hll")))], RPair (Some AnsiEscapeCodeRenderer) (Some [((lit "background_colour"), VStr (lit "#ffffcc"))])));
  ((lit ".highlight"), ([sl (SClass (SElement None) (lit "highlight"))], RPair (Some AnsiEscapeCodeRenderer) (Some [((lit "background_colour"), VStr (lit "#ffffff"))])));
  ((lit ".highlight .c"), ([sl (SCombined (SClass (SElement None) (lit "highlight")) (lit " ") (SClass (SElement None) (lit "c")))], RPair (Some AnsiEscapeCodeRenderer) (Some [((lit "foreground_colour"), VStr (lit "#aaaaaa")); ((lit "italic"), VBool true)])));
  ((lit ".highlight .err"), ([sl (SCombined (SClass (SElement None) (lit "highlight")) (lit " ") (SClass (SElement None) (lit "err")))], RPair (Some AnsiEscapeCodeRenderer) (Some [((lit "foreground_colour"), VStr (lit "#FF0000")); ((lit "background_colour"), VStr (lit "#FFAAAA"))])));
  ((lit ".highlight .k"), ([sl (SCombined (SClass (SElement None) (lit "highlight")) (lit " ") (SClass (SElement None) (lit "k")))], RPair (Some AnsiEscapeCodeRenderer) (Some [((lit "foreground_colour"), VStr (lit "#0000aa"))])));
  ((lit ".highlight .ch"), ([sl (SCombined (SClass (SElement None) (lit "highlight")) (lit " ") (SClass (SElement None) (lit "ch")))], RPair (Some AnsiEscapeCodeRenderer) (Some [((lit "foreground_colour"), VStr (lit "#aaaaaa")); ((lit "italic"), VBool true)])));
  ((lit ".highlight .cm"), ([sl (SCombined (SClass (SElement None) (lit "highlight")) (lit " ") (SClass (SElement None) (lit "cm")))], RPair (Some AnsiEscapeCodeRenderer) (Some [((lit "foreground_colour"), VStr (lit "#aaaaaa")); ((lit "italic"), VBool true)])));
  ((lit ".highlight .cp"), ([sl (SCombined (SClass (SElement None) (lit "highlight")) (lit " ") (SClass (SElement None) (lit "cp")))], RPair (Some AnsiEscapeCodeRenderer) (Some [((lit "foreground_colour"), VStr (lit "#4c8317"))])));
  ((lit ".highlight .cpf"), ([sl (SCombined (SClass (SElement None) (lit "highlight")) (lit " ") (SClass (SElement None) (lit "cpf")))], RPair (Some AnsiEscapeCodeRenderer) (Some [((lit "foreground_colour"), VStr (lit "#aaaaaa")); ((lit "italic"), VBool true)])));
  ((lit ".highlight .c1"), ([sl (SCombined (SClass (SElement None) (lit "highlight")) (lit " ") (SClass (SElement None) (lit "c1")))], RPair (Some AnsiEscapeCodeRenderer) (Some [((lit "foreground_colour"), VStr (lit "#aaaaaa")); ((lit "italic"), VBool true)])));
  ((lit ".highlight .cs"), ([sl (SCombined (SClass (SElement None) (lit "highlight")) (lit " ") (SClass (SElement None) (lit "cs")))], RPair (Some AnsiEscapeCodeRenderer) (Some [((lit "foreground_colour"), VStr (lit "#0000aa")); ((lit "italic"), VBool true)])));
  ((lit ".highlight .gd"), ([sl (SCombined (SClass (SElement None) (lit "highlight")) (lit " ") (SClass (SElement None) (lit "gd")))], RPair (Some AnsiEscapeCodeRenderer) (Some [((lit "foreground_colour"), VStr (lit "#aa0000"))])));
  ((lit ".highlight .ge"), ([sl (SCombined (SClass (SElement None) (lit "highlight")) (lit " ") (SClass (SElement None) (lit "ge")))], RPair (Some AnsiEscapeCodeRenderer) (Some [((lit "italic"), VBool true)])));
  ((lit ".highlight .gr"), ([sl (SCombined (SClass (SElement None) (lit "highlight")) (lit " ") (SClass (SElement None) (lit "gr")))], RPair (Some AnsiEscapeCodeRenderer) (Some [((lit "foreground_colour"), VStr (lit "#aa0000"))])));
  ((lit ".highlight .gh"), ([sl (SCombined (SClass (SElement None) (lit "highlight")) (lit " ") (SClass (SElement None) (lit "gh")))], RPair (Some AnsiEscapeCodeRenderer) (Some [((lit "foreground_colour"), VStr (lit "#000080")); ((lit "bold"), VBool true)])));
  ((lit ".highlight .gi"), ([sl (SCombined (SClass (SElement None) (lit "highlight")) (lit " ") (SClass (SElement None) (lit "gi")))], RPair (Some AnsiEscapeCodeRenderer) (Some [((lit "foreground_colour"), VStr (lit "#00aa00"))])));
  ((lit ".highlight .go"), ([sl (SCombined (SClass (SElement None) (lit "highlight")) (lit " ") (SClass (SElement None) (lit "go")))], RPair (Some AnsiEscapeCodeRenderer) (Some [((lit "foreground_colour"), VStr (lit "#888888"))])));
  ((lit ".highlight .gp"), ([sl (SCombined (SClass (SElement None) (lit "highlight")) (lit " ") (SClass (SElement None) (lit "gp")))], RPair (Some AnsiEscapeCodeRenderer) (Some [((lit "foreground_colour"), VStr (lit "#555555"))])));
  ((lit ".highlight .gs"), ([sl (SCombined (SClass (SElement None) (lit "highlight")) (lit " ") (SClass (SElement None) (lit "gs")))], RPair (Some AnsiEscapeCodeRenderer) (Some [((lit "bold"), VBool true)])));
  ((lit ".highlight .gu"), ([sl (SCombined (SClass (SElement None) (lit "highlight")) (lit " ") (SClass (SElement None) (lit "gu")))], RPair (Some AnsiEscapeCodeRenderer) (Some [((lit "foreground_colour"), VStr (lit "#800080")); ((lit "bold"), VBool true)])));
  ((lit ".highlight .gt"), ([sl (SCombined (SClass (SElement None) (lit "highlight")) (lit " ") (SClass (SElement None) (lit "gt")))], RPair (Some AnsiEscapeCodeRenderer) (Some [((lit "foreground_colour"), VStr (lit "#aa0000"))])));
  ((lit ".highlight .kc"), ([sl (SCombined (SClass (SElement None) (lit "highlight")) (lit " ") (SClass (SElement None) (lit "kc")))], RPair (Some AnsiEscapeCodeRenderer) (Some [((lit "foreground_colour"), VStr (lit "#0000aa"))])));
  ((lit ".highlight .kd"), ([sl (SCombined (SClass (SElement None) (lit "highlight")) (lit " ") (SClass (SElement None) (lit "kd")))], RPair (Some AnsiEscapeCodeRenderer) (Some [((lit "foreground_colour"), VStr (lit "#0000aa"))])));
  ((lit ".highlight .kn"), ([sl (SCombined (SClass (SElement None) (lit "highlight")) (lit " ") (SClass (SElement None) (lit "kn")))], RPair (Some AnsiEscapeCodeRenderer) (Some [((lit "foreground_colour"), VStr (lit "#0000aa"))])));
  ((lit ".highlight .kp"), ([sl (SCombined (SClass (SElement None) (lit "highlight")) (lit " ") (SClass (SElement None) (lit "kp")))], RPair (Some AnsiEscapeCodeRenderer) (Some [((lit "foreground_colour"), VStr (lit "#0000aa"))])));
  ((lit ".highlight .kr"), ([sl (SCombined (SClass (SElement None) (lit "highlight")) (lit " ") (SClass (SElement None) (lit "kr")))], RPair (Some AnsiEscapeCodeRenderer) (Some [((lit "foreground_colour"), VStr (lit "#0000aa"))])));
  ((lit ".highlight .kt"), ([sl (SCombined (SClass (SElement None) (lit "highlight")) (lit " ") (SClass (SElement None) (lit "kt")))], RPair (Some AnsiEscapeCodeRenderer) (Some [((lit "foreground_colour"), VStr (lit "#00aaaa"))])));
  ((lit ".highlight .m"), ([sl (SCombined (SClass (SElement None) (lit "highlight")) (lit " ") (SClass (SElement None) (lit "m")))], RPair (Some AnsiEscapeCodeRenderer) (Some [((lit "foreground_colour"), VStr (lit "#009999"))])));
  ((lit ".highlight .s"), ([sl (SCombined (SClass (SElement None) (lit "highlight")) (lit " ") (SClass (SElement None) (lit "s")))], RPair (Some AnsiEscapeCodeRenderer) (Some [((lit "foreground_colour"), VStr (lit "#aa5500"))])));
  ((lit ".highlight .na"), ([sl (SCombined (SClass (SElement None) (lit "highlight")) (lit " ") (SClass (SElement None) (lit "na")))], RPair (Some AnsiEscapeCodeRenderer) (Some [((lit "foreground_colour"), VStr (lit "#1e90ff"))])));
  ((lit ".highlight .nb"), ([sl (SCombined (SClass (SElement None) (lit "highlight")) (lit " ") (SClass (SElement None) (lit "nb")))], RPair (Some AnsiEscapeCodeRenderer) (Some [((lit "foreground_colour"), VStr (lit "#00aaaa"))])));
  ((lit ".highlight .nc"), ([sl (SCombined (SClass (SElement None) (lit "highlight")) (lit " ") (SClass (SElement None) (lit "nc")))], RPair (Some AnsiEscapeCodeRenderer) (Some [((lit "foreground_colour"), VStr (lit "#00aa00"))])));
  ((lit ".highlight .no"), ([sl (SCombined (SClass (SElement None) (lit "highlight")) (lit " ") (SClass (SElement None) (lit "no")))], RPair (Some AnsiEscapeCodeRenderer) (Some [((lit "foreground_colour"), VStr (lit "#aa0000"))])));
  ((lit ".highlight .nd"), ([sl (SCombined (SClass (SElement None) (lit "highlight")) (lit " ") (SClass (SElement None) (lit "nd")))], RPair (Some AnsiEscapeCodeRenderer) (Some [((lit "foreground_colour"), VStr (lit "#888888"))])));
  ((lit ".highlight .ni"), ([sl (SCombined (SClass (SElement None) (lit "highlight")) (lit " ") (SClass (SElement None) (lit "ni")))], RPair (Some AnsiEscapeCodeRenderer) (Some [((lit "foreground_colour"), VStr (lit "#880000")); ((lit "bold"), VBool true)])));
  ((lit ".highlight .nf"), ([sl (SCombined (SClass (SElement None) (lit "highlight")) (lit " ") (SClass (SElement None) (lit "nf")))], RPair (Some AnsiEscapeCodeRenderer) (Some [((lit "foreground_colour"), VStr (lit "#00aa00"))])));
  ((lit ".highlight .nn"), ([sl (SCombined (SClass (SElement None) (lit "highlight")) (lit " ") (SClass (SElement None) (lit "nn")))], RPair (Some AnsiEscapeCodeRenderer) (Some [((lit "foreground_colour"), VStr (lit "#00aaaa"))])));
  ((lit ".highlight .nt"), ([sl (SCombined (SClass (SElement None) (lit "highlight")) (lit " ") (SClass (SElement None) (lit "nt")))], RPair (Some AnsiEscapeCodeRenderer) (Some [((lit "foreground_colour"), VStr (lit "#1e90ff")); ((lit "bold"), VBool true)])));
  ((lit ".highlight .nv"), ([sl (SCombined (SClass (SElement None) (lit "highlight")) (lit " ") (SClass (SElement None) (lit "nv")))], RPair (Some AnsiEscapeCodeRenderer) (Some [((lit "foreground_colour"), VStr (lit "#aa0000"))])));
  ((lit ".highlight .ow"), ([sl (SCombined (SClass (SElement None) (lit "highlight")) (lit " ") (SClass (SElement None) (lit "ow")))], RPair (Some AnsiEscapeCodeRenderer) (Some [((lit "foreground_colour"), VStr (lit "#0000aa"))])));
  ((lit ".highlight .w"), ([sl (SCombined (SClass (SElement None) (lit "highlight")) (lit " ") (SClass (SElement None) (lit "w")))], RPair (Some AnsiEscapeCodeRenderer) (Some [((lit "foreground_colour"), VStr (lit "#bbbbbb"))])));
  ((lit ".highlight .mb"), ([sl (SCombined (SClass (SElement None) (lit "highlight")) (lit " ") (SClass (SElement None) (lit "mb")))], RPair (Some AnsiEscapeCodeRenderer) (Some [((lit "foreground_colour"), VStr (lit "#009999"))])));
  ((lit ".highlight .mf"), ([sl (SCombined (SClass (SElement None) (lit "highlight")) (lit " ") (SClass (SElement None) (lit "mf")))], RPair (Some AnsiEscapeCodeRenderer) (Some [((lit "foreground_colour"), VStr (lit "#009999"))])));
  ((lit ".highlight .mh"), ([sl (SCombined (SClass (SElement None) (lit "highlight")) (lit " ") (SClass (SElement None) (lit "mh")))], RPair (Some AnsiEscapeCodeRenderer) (Some [((lit "foreground_colour"), VStr (lit "#009999"))])));
  ((lit ".highlight .mi"), ([sl (SCombined (SClass (SElement None) (lit "highlight")) (lit " ") (SClass (SElement None) (lit "mi")))], RPair (Some AnsiEscapeCodeRenderer) (Some [((lit "foreground_colour"), VStr (lit "#009999"))])));
  ((lit ".highlight .mo"), ([sl (SCombined (SClass (SElement None) (lit "highlight")) (lit " ") (SClass (SElement None) (lit "mo")))], RPair (Some AnsiEscapeCodeRenderer) (Some [((lit "foreground_colour"), VStr (lit "#009999"))])));
  ((lit ".highlight .sa"), ([sl (SCombined (SClass (SElement None) (lit "highlight")) (lit " ") (SClass (SElement None) (lit "sa")))], RPair (Some AnsiEscapeCodeRenderer) (Some [((lit "foreground_colour"), VStr (lit "#aa5500"))])));
  ((lit ".highlight .sb"), ([sl (SCombined (SClass (SElement None) (lit "highlight")) (lit " ") (SClass (SElement None) (lit "sb")))], RPair (Some AnsiEscapeCodeRenderer) (Some [((lit "foreground_colour"), VStr (lit "#aa5500"))])));
  ((lit ".highlight .sc"), ([sl (SCombined (SClass (SElement None) (lit "highlight")) (lit " ") (SClass (SElement None) (lit "sc")))], RPair (Some AnsiEscapeCodeRenderer) (Some [((lit "foreground_colour"), VStr (lit "#aa5500"))])));
  ((lit ".highlight .dl"), ([sl (SCombined (SClass (SElement None) (lit "highlight")) (lit " ") (SClass (SElement None) (lit "dl")))], RPair (Some AnsiEscapeCodeRenderer) (Some [((lit "foreground_colour"), VStr (lit "#aa5500"))])));
  ((lit ".highlight .sd"), ([sl (SCombined (SClass (SElement None) (lit "highlight")) (lit " ") (SClass (SElement None) (lit "sd")))], RPair (Some AnsiEscapeCodeRenderer) (Some [((lit "foreground_colour"), VStr (lit "#aa5500"))])));
  ((lit ".highlight .s2"), ([sl (SCombined (SClass (SElement None) (lit "highlight")) (lit " ") (SClass (SElement None) (lit "s2")))], RPair (Some AnsiEscapeCodeRenderer) (Some [((lit "foreground_colour"), VStr (lit "#aa5500"))])));
  ((lit ".highlight .se"), ([sl (SCombined (SClass (SElement None) (lit "highlight")) (lit " ") (SClass (SElement None) (lit "se")))], RPair (Some AnsiEscapeCodeRenderer) (Some [((lit "foreground_colour"), VStr (lit "#aa5500"))])));
  ((lit ".highlight .sh"), ([sl (SCombined (SClass (SElement None) (lit "highlight")) (lit " ") (SClass (SElement None) (lit "sh")))], RPair (Some AnsiEscapeCodeRenderer) (Some [((lit "foreground_colour"), VStr (lit "#aa5500"))])));
  ((lit ".highlight .si"), ([sl (SCombined (SClass (SElement None) (lit "highlight")) (lit " ") (SClass (SElement None) (lit "si")))], RPair (Some AnsiEscapeCodeRenderer) (Some [((lit "foreground_colour"), VStr (lit "#aa5500"))])));
  ((lit ".highlight .sx"), ([sl (SCombined (SClass (SElement None) (lit "highlight")) (lit " ") (SClass (SElement None) (lit "sx")))], RPair (Some AnsiEscapeCodeRenderer) (Some [((lit "foreground_colour"), VStr (lit "#aa5500"))])));
  ((lit ".highlight .sr"), ([sl (SCombined (SClass (SElement None) (lit "highlight")) (lit " ") (SClass (SElement None) (lit "sr")))], RPair (Some AnsiEscapeCodeRenderer) (Some [((lit "foreground_colour"), VStr (lit "#009999"))])));
  ((lit ".highlight .s1"), ([sl (SCombined (SClass (SElement None) (lit "highlight")) (lit " ") (SClass (SElement None) (lit "s1")))], RPair (Some AnsiEscapeCodeRenderer) (Some [((lit "foreground_colour"), VStr (lit "#aa5500"))])));
  ((lit ".highlight .ss"), ([sl (SCombined (SClass (SElement None) (lit "highlight")) (lit " ") (SClass (SElement None) (lit "ss")))], RPair (Some AnsiEscapeCodeRenderer) (Some [((lit "foreground_colour"), VStr (lit "#0000aa"))])));
  ((lit ".highlight .bp"), ([sl (SCombined (SClass (SElement None) (lit "highlight")) (lit " ") (SClass (SElement None) (lit "bp")))], RPair (Some AnsiEscapeCodeRenderer) (Some [((lit "foreground_colour"), VStr (lit "#00aaaa"))])));
  ((lit ".highlight .fm"), ([sl (SCombined (SClass (SElement None) (lit "highlight")) (lit " ") (SClass (SElement None) (lit "fm")))], RPair (Some AnsiEscapeCodeRenderer) (Some [((lit "foreground_colour"), VStr (lit "#00aa00"))])));
  ((lit ".highlight .vc"), ([sl (SCombined (SClass (SElement None) (lit "highlight")) (lit " ") (SClass (SElement None) (lit "vc")))], RPair (Some AnsiEscapeCodeRenderer) (Some [((lit "foreground_colour"), VStr (lit "#aa0000"))])));
  ((lit ".highlight .vg"), ([sl (SCombined (SClass (SElement None) (lit "highlight")) (lit " ") (SClass (SElement None) (lit "vg")))], RPair (Some AnsiEscapeCodeRenderer) (Some [((lit "foreground_colour"), VStr (lit "#aa0000"))])));
  ((lit ".highlight .vi"), ([sl (SCombined (SClass (SElement None) (lit "highlight")) (lit " ") (SClass (SElement None) (lit "vi")))], RPair (Some AnsiEscapeCodeRenderer) (Some [((lit "foreground_colour"), VStr (lit "#aa0000"))])));
  ((lit ".highlight .vm"), ([sl (SCombined (SClass (SElement None) (lit "highlight")) (lit " ") (SClass (SElement None) (lit "vm")))], RPair (Some AnsiEscapeCodeRenderer) (Some [((lit "foreground_colour"), VStr (lit "#aa0000"))])));
  ((lit ".highlight .il"), ([sl (SCombined (SClass (SElement None) (lit "highlight")) (lit " ") (SClass (SElement None) (lit "il")))], RPair (Some AnsiEscapeCodeRenderer) (Some [((lit "foreground_colour"), VStr (lit "#009999"))])))].

(** code_themes/darkly.py:15-30 [renderers] *)
Definition theme_darkly : table :=
[  ((lit ".hll"), ([sl (SClass (SElement None) (lit "hll"))], RPair (Some AnsiEscapeCodeRenderer) (Some [((lit "background_colour"), VStr (lit "#ffc"))])));
  ((lit ".gd"), ([sl (SClass (SElement None) (lit "gd"))], RPair (Some AnsiEscapeCodeRenderer) (Some [((lit "foreground_colour"), VStr (lit "#2e3436")); ((lit "background_colour"), VStr (lit "#0e1416"))])));
  ((lit ".gr"), ([sl (SClass (SElement None) (lit "gr"))], RPair (Some AnsiEscapeCodeRenderer) (Some [((lit "foreground_colour"), VStr (lit "#eeeeec")); ((lit "background_colour"), VStr (lit "#c00"))])));
  ((lit ".gi"), ([sl (SClass (SElement None) (lit "gi"))], RPair (Some AnsiEscapeCodeRenderer) (Some [((lit "foreground_colour"), VStr (lit "#babdb6")); ((lit "background_colour"), VStr (lit "#1f2b2d"))])));
  ((lit ".go"), ([sl (SClass (SElement None) (lit "go"))], RPair (Some AnsiEscapeCodeRenderer) (Some [((lit "foreground_colour"), VStr (lit "#2c3032")); ((lit "background_colour"), VStr (lit "#2c3032"))])));
  ((lit ".kt"), ([sl (SClass (SElement None) (lit "kt"))], RPair (Some AnsiEscapeCodeRenderer) (Some [((lit "foreground_colour"), VStr (lit "#e3e7df"))])));
  ((lit ".ni"), ([sl (SClass (SElement None) (lit "ni"))], RPair (Some AnsiEscapeCodeRenderer) (Some [((lit "foreground_colour"), VStr (lit "#888a85"))])));
  ((lit ".c,.cm,.c1,.cs"), ([sl (SClass (SElement None) (lit "c")); sl (SClass (SElement None) (lit "cm")); sl (SClass (SElement None) (lit "c1")); sl (SClass (SElement None) (lit "cs"))], RPair (Some AnsiEscapeCodeRenderer) (Some [((lit "foreground_colour"), VStr (lit "#8D9684"))])));
  ((lit ".err,.g,.l,.n,.x,.p,.ge,.gp,.gs,.gt,.ld,.s,.nc,.nd,.ne,.nl,.nn,.nx,.py,.ow,.w,.sb,.sc,.sd,.s2,.se,.sh,.si,.sx,.sr,.s1,.ss,.bp"), ([sl (SClass (SElement None) (lit "err")); sl (SClass (SElement None) (lit "g")); sl (SClass (SElement None) (lit "l")); sl (SClass (SElement None) (lit "n")); sl (SClass (SElement None) (lit "x")); sl (SClass (SElement None) (lit "p")); sl (SClass (SElement None) (lit "ge")); sl (SClass (SElement None) (lit "gp")); sl (SClass (SElement None) (lit "gs")); sl (SClass (SElement None) (lit "gt")); sl (SClass (SElement None) (lit "ld")); sl (SClass (SElement None) (lit "s")); sl (SClass (SElement None) (lit "nc")); sl (SClass (SElement None) (lit "nd")); sl (SClass (SElement None) (lit "ne")); sl (SClass (SElement None) (lit "nl")); sl (SClass (SElement None) (lit "nn")); sl (SClass (SElement None) (lit "nx")); sl (SClass (SElement None) (lit "py")); sl (SClass (SElement None) (lit "ow")); sl (SClass (SElement None) (lit "w")); sl (SClass (SElement None) (lit "sb")); sl (SClass (SElement None) (lit "sc")); sl (SClass (SElement None) (lit "sd")); sl (SClass (SElement None) (lit "s2")); sl (SClass (SElement None) (lit "se")); sl (SClass (SElement None) (lit "sh")); sl (SClass (SElement None) (lit "si")); sl (SClass (SElement None) (lit "sx")); sl (SClass (SElement None) (lit "sr")); sl (SClass (SElement None) (lit "s1")); sl (SClass (SElement None) (lit "ss")); sl (SClass (SElement None) (lit "bp"))], RPair (Some AnsiEscapeCodeRenderer) (Some [((lit "foreground_colour"), VStr (lit "#C1C2C3"))])));
  ((lit ".k,.kc,.kd,.kn,.kp,.kr,.nt"), ([sl (SClass (SElement None) (lit "k")); sl (SClass (SElement None) (lit "kc")); sl (SClass (SElement None) (lit "kd")); sl (SClass (SElement None) (lit "kn")); sl (SClass (SElement None) (lit "kp")); sl (SClass (SElement None) (lit "kr")); sl (SClass (SElement None) (lit "nt"))], RPair (Some AnsiEscapeCodeRenderer) (Some [((lit "foreground_colour"), VStr (lit "#729fcf"))])));
  ((lit ".cp,.gh,.gu,.na,.nf"), ([sl (SClass (SElement None) (lit "cp")); sl (SClass (SElement None) (lit "gh")); sl (SClass (SElement None) (lit "gu")); sl (SClass (SElement None) (lit "na")); sl (SClass (SElement None) (lit "nf"))], RPair (Some AnsiEscapeCodeRenderer) (Some [((lit "foreground_colour"), VStr (lit "#E9A94B"))])));
  ((lit ".m,.nb,.no,.mf,.mh,.mi,.mo,.il"), ([sl (SClass (SElement None) (lit "m")); sl (SClass (SElement None) (lit "nb")); sl (SClass (SElement None) (lit "no")); sl (SClass (SElement None) (lit "mf")); sl (SClass (SElement None) (lit "mh")); sl (SClass (SElement None) (lit "mi")); sl (SClass (SElement None) (lit "mo")); sl (SClass (SElement None) (lit "il"))], RPair (Some AnsiEscapeCodeRenderer) (Some [((lit "foreground_colour"), VStr (lit "#8ae234"))])));
  ((lit ".o"), ([sl (SClass (SElement None) (lit "o"))], RPair (Some AnsiEscapeCodeRenderer) (Some [((lit "foreground_colour"), VStr (lit "#989DAA"))])));
  ((lit ".nv,.vc,.vg,.vi"), ([sl (SClass (SElement None) (lit "nv")); sl (SClass (SElement None) (lit "vc")); sl (SClass (SElement None) (lit "vg")); sl (SClass (SElement None) (lit "vi"))], RPair (Some AnsiEscapeCodeRenderer) (Some [((lit "foreground_colour"), VStr (lit "#fff"))])))].

(** code_themes/darkly_ansi.py:6-23 [renderers] *)
Definition theme_darkly_ansi : table :=
[  ((lit ".hll"), ([sl (SClass (SElement None) (lit "hll"))], RPair (Some AnsiEscapeCodeRenderer) (Some [((lit "background_colour"), VStr (lit "bright_yellow"))])));
  ((lit ".gd"), ([sl (SClass (SElement None) (lit "gd"))], RPair (Some AnsiEscapeCodeRenderer) (Some [((lit "foreground_colour"), VStr (lit "cyan")); ((lit "background_colour"), VStr (lit "black"))])));
  ((lit ".gr"), ([sl (SClass (SElement None) (lit "gr"))], RPair (Some AnsiEscapeCodeRenderer) (Some [((lit "foreground_colour"), VStr (lit "bright_white")); ((lit "background_colour"), VStr (lit "bright_red"))])));
  ((lit ".gi"), ([sl (SClass (SElement None) (lit "gi"))], RPair (Some AnsiEscapeCodeRenderer) (Some [((lit "foreground_colour"), VStr (lit "white")); ((lit "background_colour"), VStr (lit "black"))])));
  ((lit ".go"), ([sl (SClass (SElement None) (lit "go"))], RPair (Some AnsiEscapeCodeRenderer) (Some [((lit "foreground_colour"), VStr (lit "white")); ((lit "background_colour"), VStr (lit "cyan"))])));
  ((lit ".ni"), ([sl (SClass (SElement None) (lit "ni"))], RPair (Some AnsiEscapeCodeRenderer) (Some [((lit "foreground_colour"), VStr (lit "yellow"))])));
  ((lit ".c,.cm,.c1,.cs"), ([sl (SClass (SElement None) (lit "c")); sl (SClass (SElement None) (lit "cm")); sl (SClass (SElement None) (lit "c1")); sl (SClass (SElement None) (lit "cs"))], RPair (Some AnsiEscapeCodeRenderer) (Some [((lit "foreground_colour"), VStr (lit "yellow"))])));
  ((lit ".k,.kc,.kd,.kn,.kp,.kr,.nt"), ([sl (SClass (SElement None) (lit "k")); sl (SClass (SElement None) (lit "kc")); sl (SClass (SElement None) (lit "kd")); sl (SClass (SElement None) (lit "kn")); sl (SClass (SElement None) (lit "kp")); sl (SClass (SElement None) (lit "kr")); sl (SClass (SElement None) (lit "nt"))], RPair (Some AnsiEscapeCodeRenderer) (Some [((lit "foreground_colour"), VStr (lit "blue"))])));
  ((lit ".cp,.gh,.gu,.na,.nf"), ([sl (SClass (SElement None) (lit "cp")); sl (SClass (SElement None) (lit "gh")); sl (SClass (SElement None) (lit "gu")); sl (SClass (SElement None) (lit "na")); sl (SClass (SElement None) (lit "nf"))], RPair (Some AnsiEscapeCodeRenderer) (Some [((lit "foreground_colour"), VStr (lit "bright_red"))])));
  ((lit ".m,.nb,.no,.mf,.mh,.mi,.mo,.il"), ([sl (SClass (SElement None) (lit "m")); sl (SClass (SElement None) (lit "nb")); sl (SClass (SElement None) (lit "no")); sl (SClass (SElement None) (lit "mf")); sl (SClass (SElement None) (lit "mh")); sl (SClass (SElement None) (lit "mi")); sl (SClass (SElement None) (lit "mo")); sl (SClass (SElement None) (lit "il"))], RPair (Some AnsiEscapeCodeRenderer) (Some [((lit "foreground_colour"), VStr (lit "bright_green"))])));
  ((lit ".o"), ([sl (SClass (SElement None) (lit "o"))], RPair (Some AnsiEscapeCodeRenderer) (Some [((lit "foreground_colour"), VStr (lit "bright_black"))])))].

(** code_themes/github.py:24-87 [renderers] *)
Definition theme_github : table :=
[  ((lit ".highlight .c"), ([sl (SCombined (SClass (SElement None) (lit "highlight")) (lit " ") (SClass (SElement None) (lit "c")))], RPair (Some AnsiEscapeCodeRenderer) (Some [((lit "foreground_colour"), VStr (lit "#999988")); ((lit "italic"), VBool true)])));
  ((lit ".highlight .err"), ([sl (SCombined (SClass (SElement None) (lit "highlight")) (lit " ") (SClass (SElement None) (lit "err")))], RPair (Some AnsiEscapeCodeRenderer) (Some [((lit "foreground_colour"), VStr (lit "#a61717")); ((lit "background-colour"), VStr (lit "#e3d2d2"))])));
  ((lit ".highlight .k"), ([sl (SCombined (SClass (SElement None) (lit "highlight")) (lit " ") (SClass (SElement None) (lit "k")))], RPair (Some AnsiEscapeCodeRenderer) (Some [((lit "bold"), VBool true)])));
  ((lit ".highlight .o"), ([sl (SCombined (SClass (SElement None) (lit "highlight")) (lit " ") (SClass (SElement None) (lit "o")))], RPair (Some AnsiEscapeCodeRenderer) (Some [((lit "bold"), VBool true)])));
  ((lit ".highlight .cm"), ([sl (SCombined (SClass (SElement None) (lit "highlight")) (lit " ") (SClass (SElement None) (lit "cm")))], RPair (Some AnsiEscapeCodeRenderer) (Some [((lit "foreground_colour"), VStr (lit "#999988")); ((lit "italic"), VBool true)])));
  ((lit ".highlight .cp"), ([sl (SCombined (SClass (SElement None) (lit "highlight")) (lit " ") (SClass (SElement None) (lit "cp")))], RPair (Some AnsiEscapeCodeRenderer) (Some [((lit "foreground_colour"), VStr (lit "#999999")); ((lit "bold"), VBool true)])));
  ((lit ".highlight .c1"), ([sl (SCombined (SClass (SElement None) (lit "highlight")) (lit " ") (SClass (SElement None) (lit "c1")))], RPair (Some AnsiEscapeCodeRenderer) (Some [((lit "foreground_colour"), VStr (lit "#999988")); ((lit "italic"), VBool true)])));
  ((lit ".highlight .cs"), ([sl (SCombined (SClass (SElement None) (lit "highlight")) (lit " ") (SClass (SElement None) (lit "cs")))], RPair (Some AnsiEscapeCodeRenderer) (Some [((lit "foreground_colour"), VStr (lit "#999999")); ((lit "bold"), VBool true); ((lit "italic"), VBool true)])));
  ((lit ".highlight .gd"), ([sl (SCombined (SClass (SElement None) (lit "highlight")) (lit " ") (SClass (SElement None) (lit "gd")))], RPair (Some AnsiEscapeCodeRenderer) (Some [((lit "foreground_colour"), VStr (lit "#000000")); ((lit "background-colour"), VStr (lit "#ffdddd"))])));
  ((lit ".highlight .gd .x"), ([sl (SCombined (SCombined (SClass (SElement None) (lit "highlight")) (lit " ") (SClass (SElement None) (lit "gd"))) (lit " ") (SClass (SElement None) (lit "x")))], RPair (Some AnsiEscapeCodeRenderer) (Some [((lit "foreground_colour"), VStr (lit "#000000")); ((lit "background-colour"), VStr (lit "#ffaaaa"))])));
  ((lit ".highlight .ge"), ([sl (SCombined (SClass (SElement None) (lit "highlight")) (lit " ") (SClass (SElement None) (lit "ge")))], RPair (Some AnsiEscapeCodeRenderer) (Some [((lit "italic"), VBool true)])));
  ((lit ".highlight .gr"), ([sl (SCombined (SClass (SElement None) (lit "highlight")) (lit " ") (SClass (SElement None) (lit "gr")))], RPair (Some AnsiEscapeCodeRenderer) (Some [((lit "foreground_colour"), VStr (lit "#aa0000"))])));
  ((lit ".highlight .gh"), ([sl (SCombined (SClass (SElement None) (lit "highlight")) (lit " ") (SClass (SElement None) (lit "gh")))], RPair (Some AnsiEscapeCodeRenderer) (Some [((lit "foreground_colour"), VStr (lit "#999999"))])));
  ((lit ".highlight .gi"), ([sl (SCombined (SClass (SElement None) (lit "highlight")) (lit " ") (SClass (SElement None) (lit "gi")))], RPair (Some AnsiEscapeCodeRenderer) (Some [((lit "foreground_colour"), VStr (lit "#000000")); ((lit "background-colour"), VStr (lit "#ddffdd"))])));
  ((lit ".highlight .gi .x"), ([sl (SCombined (SCombined (SClass (SElement None) (lit "highlight")) (lit " ") (SClass (SElement None) (lit "gi"))) (lit " ") (SClass (SElement None) (lit "x")))], RPair (Some AnsiEscapeCodeRenderer) (Some [((lit "foreground_colour"), VStr (lit "#000000")); ((lit "background-colour"), VStr (lit "#aaffaa"))])));
  ((lit ".highlight .go"), ([sl (SCombined (SClass (SElement None) (lit "highlight")) (lit " ") (SClass (SElement None) (lit "go")))], RPair (Some AnsiEscapeCodeRenderer) (Some [((lit "foreground_colour"), VStr (lit "#888888"))])));
  ((lit ".highlight .gp"), ([sl (SCombined (SClass (SElement None) (lit "highlight")) (lit " ") (SClass (SElement None) (lit "gp")))], RPair (Some AnsiEscapeCodeRenderer) (Some [((lit "foreground_colour"), VStr (lit "#555555"))])));
  ((lit ".highlight .gs"), ([sl (SCombined (SClass (SElement None) (lit "highlight")) (lit " ") (SClass (SElement None) (lit "gs")))], RPair (Some AnsiEscapeCodeRenderer) (Some [((lit "bold"), VBool true)])));
  ((lit ".highlight .gu"), ([sl (SCombined (SClass (SElement None) (lit "highlight")) (lit " ") (SClass (SElement None) (lit "gu")))], RPair (Some AnsiEscapeCodeRenderer) (Some [((lit "foreground_colour"), VStr (lit "#800080")); ((lit "bold"), VBool true)])));
  ((lit ".highlight .gt"), ([sl (SCombined (SClass (SElement None) (lit "highlight")) (lit " ") (SClass (SElement None) (lit "gt")))], RPair (Some AnsiEscapeCodeRenderer) (Some [((lit "foreground_colour"), VStr (lit "#aa0000"))])));
  ((lit ".highlight .kc"), ([sl (SCombined (SClass (SElement None) (lit "highlight")) (lit " ") (SClass (SElement None) (lit "kc")))], RPair (Some AnsiEscapeCodeRenderer) (Some [((lit "bold"), VBool true)])));
  ((lit ".highlight .kd"), ([sl (SCombined (SClass (SElement None) (lit "highlight")) (lit " ") (SClass (SElement None) (lit "kd")))], RPair (Some AnsiEscapeCodeRenderer) (Some [((lit "bold"), VBool true)])));
  ((lit ".highlight .kn"), ([sl (SCombined (SClass (SElement None) (lit "highlight")) (lit " ") (SClass (SElement None) (lit "kn")))], RPair (Some AnsiEscapeCodeRenderer) (Some [((lit "bold"), VBool true)])));
  ((lit ".highlight .kp"), ([sl (SCombined (SClass (SElement None) (lit "highlight")) (lit " ") (SClass (SElement None) (lit "kp")))], RPair (Some AnsiEscapeCodeRenderer) (Some [((lit "bold"), VBool true)])));
  ((lit ".highlight .kr"), ([sl (SCombined (SClass (SElement None) (lit "highlight")) (lit " ") (SClass (SElement None) (lit "kr")))], RPair (Some AnsiEscapeCodeRenderer) (Some [((lit "bold"), VBool true)])));
  ((lit ".highlight .kt"), ([sl (SCombined (SClass (SElement None) (lit "highlight")) (lit " ") (SClass (SElement None) (lit "kt")))], RPair (Some AnsiEscapeCodeRenderer) (Some [((lit "foreground_colour"), VStr (lit "#445588")); ((lit "bold"), VBool true)])));
  ((lit ".highlight .m"), ([sl (SCombined (SClass (SElement None) (lit "highlight")) (lit " ") (SClass (SElement None) (lit "m")))], RPair (Some AnsiEscapeCodeRenderer) (Some [((lit "foreground_colour"), VStr (lit "#009999"))])));
  ((lit ".highlight .s"), ([sl (SCombined (SClass (SElement None) (lit "highlight")) (lit " ") (SClass (SElement None) (lit "s")))], RPair (Some AnsiEscapeCodeRenderer) (Some [((lit "foreground_colour"), VStr (lit "#dd1144"))])));
  ((lit ".highlight .n"), ([sl (SCombined (SClass (SElement None) (lit "highlight")) (lit " ") (SClass (SElement None) (lit "n")))], RPair (Some AnsiEscapeCodeRenderer) (Some [((lit "foreground_colour"), VStr (lit "#333333"))])));
  ((lit ".highlight .na"), ([sl (SCombined (SClass (SElement None) (lit "highlight")) (lit " ") (SClass (SElement None) (lit "na")))], RPair (Some AnsiEscapeCodeRenderer) (Some [((lit "foreground_colour"), VStr (lit "#008080"))])));
  ((lit ".highlight .nb"), ([sl (SCombined (SClass (SElement None) (lit "highlight")) (lit " ") (SClass (SElement None) (lit "nb")))], RPair (Some AnsiEscapeCodeRenderer) (Some [((lit "foreground_colour"), VStr (lit "#0086b3"))])));
  ((lit ".highlight .nc"), ([sl (SCombined (SClass (SElement None) (lit "highlight")) (lit " ") (SClass (SElement None) (lit "nc")))], RPair (Some AnsiEscapeCodeRenderer) (Some [((lit "foreground_colour"), VStr (lit "#445588")); ((lit "bold"), VBool true)])));
  ((lit ".highlight .no"), ([sl (SCombined (SClass (SElement None) (lit "highlight")) (lit " ") (SClass (SElement None) (lit "no")))], RPair (Some AnsiEscapeCodeRenderer) (Some [((lit "foreground_colour"), VStr (lit "#008080"))])));
  ((lit ".highlight .ni"), ([sl (SCombined (SClass (SElement None) (lit "highlight")) (lit " ") (SClass (SElement None) (lit "ni")))], RPair (Some AnsiEscapeCodeRenderer) (Some [((lit "foreground_colour"), VStr (lit "#800080"))])));
  ((lit ".highlight .ne"), ([sl (SCombined (SClass (SElement None) (lit "highlight")) (lit " ") (SClass (SElement None) (lit "ne")))], RPair (Some AnsiEscapeCodeRenderer) (Some [((lit "foreground_colour"), VStr (lit "#990000")); ((lit "bold"), VBool true)])));
  ((lit ".highlight .nf"), ([sl (SCombined (SClass (SElement None) (lit "highlight")) (lit " ") (SClass (SElement None) (lit "nf")))], RPair (Some AnsiEscapeCodeRenderer) (Some [((lit "foreground_colour"), VStr (lit "#990000")); ((lit "bold"), VBool true)])));
  ((lit ".highlight .nn"), ([sl (SCombined (SClass (SElement None) (lit "highlight")) (lit " ") (SClass (SElement None) (lit "nn")))], RPair (Some AnsiEscapeCodeRenderer) (Some [((lit "foreground_colour"), VStr (lit "#555555"))])));
  ((lit ".highlight .nt"), ([sl (SCombined (SClass (SElement None) (lit "highlight")) (lit " ") (SClass (SElement None) (lit "nt")))], RPair (Some AnsiEscapeCodeRenderer) (Some [((lit "foreground_colour"), VStr (lit "#000080"))])));
  ((lit ".highlight .nv"), ([sl (SCombined (SClass (SElement None) (lit "highlight")) (lit " ") (SClass (SElement None) (lit "nv")))], RPair (Some AnsiEscapeCodeRenderer) (Some [((lit "foreground_colour"), VStr (lit "#008080"))])));
  ((lit ".highlight .ow"), ([sl (SCombined (SClass (SElement None) (lit "highlight")) (lit " ") (SClass (SElement None) (lit "ow")))], RPair (Some AnsiEscapeCodeRenderer) (Some [((lit "bold"), VBool true)])));
  ((lit ".highlight .w"), ([sl (SCombined (SClass (SElement None) (lit "highlight")) (lit " ") (SClass (SElement None) (lit "w")))], RPair (Some AnsiEscapeCodeRenderer) (Some [((lit "foreground_colour"), VStr (lit "#bbbbbb"))])));
  ((lit ".highlight .mf"), ([sl (SCombined (SClass (SElement None) (lit "highlight")) (lit " ") (SClass (SElement None) (lit "mf")))], RPair (Some AnsiEscapeCodeRenderer) (Some [((lit "foreground_colour"), VStr (lit "#009999"))])));
  ((lit ".highlight .mh"), ([sl (SCombined (SClass (SElement None) (lit "highlight")) (lit " ") (SClass (SElement None) (lit "mh")))], RPair (Some AnsiEscapeCodeRenderer) (Some [((lit "foreground_colour"), VStr (lit "#009999"))])));
  ((lit ".highlight .mi"), ([sl (SCombined (SClass (SElement None) (lit "highlight")) (lit " ") (SClass (SElement None) (lit "mi")))], RPair (Some AnsiEscapeCodeRenderer) (Some [((lit "foreground_colour"), VStr (lit "#009999"))])));
  ((lit ".highlight .mo"), ([sl (SCombined (SClass (SElement None) (lit "highlight")) (lit " ") (SClass (SElement None) (lit "mo")))], RPair (Some AnsiEscapeCodeRenderer) (Some [((lit "foreground_colour"), VStr (lit "#009999"))])));
  ((lit ".highlight .sb"), ([sl (SCombined (SClass (SElement None) (lit "highlight")) (lit " ") (SClass (SElement None) (lit "sb")))], RPair (Some AnsiEscapeCodeRenderer) (Some [((lit "foreground_colour"), VStr (lit "#dd1144"))])));
  ((lit ".highlight .sc"), ([sl (SCombined (SClass (SElement None) (lit "highlight")) (lit " ") (SClass (SElement None) (lit "sc")))], RPair (Some AnsiEscapeCodeRenderer) (Some [((lit "foreground_colour"), VStr (lit "#dd1144"))])));
  ((lit ".highlight .sd"), ([sl (SCombined (SClass (SElement None) (lit "highlight")) (lit " ") (SClass (SElement None) (lit "sd")))], RPair (Some AnsiEscapeCodeRenderer) (Some [((lit "foreground_colour"), VStr (lit "#dd1144"))])));
  ((lit ".highlight .s2"), ([sl (SCombined (SClass (SElement None) (lit "highlight")) (lit " ") (SClass (SElement None) (lit "s2")))], RPair (Some AnsiEscapeCodeRenderer) (Some [((lit "foreground_colour"), VStr (lit "#dd1144"))])));
  ((lit ".highlight .se"), ([sl (SCombined (SClass (SElement None) (lit "highlight")) (lit " ") (SClass (SElement None) (lit "se")))], RPair (Some AnsiEscapeCodeRenderer) (Some [((lit "foreground_colour"), VStr (lit "#dd1144"))])));
  ((lit ".highlight .sh"), ([sl (SCombined (SClass (SElement None) (lit "highlight")) (lit " ") (SClass (SElement None) (lit "sh")))], RPair (Some AnsiEscapeCodeRenderer) (Some [((lit "foreground_colour"), VStr (lit "#dd1144"))])));
  ((lit ".highlight .si"), ([sl (SCombined (SClass (SElement None) (lit "highlight")) (lit " ") (SClass (SElement None) (lit "si")))], RPair (Some AnsiEscapeCodeRenderer) (Some [((lit "foreground_colour"), VStr (lit "#dd1144"))])));
  ((lit ".highlight .sx"), ([sl (SCombined (SClass (SElement None) (lit "highlight")) (lit " ") (SClass (SElement None) (lit "sx")))], RPair (Some AnsiEscapeCodeRenderer) (Some [((lit "foreground_colour"), VStr (lit "#dd1144"))])));
  ((lit ".highlight .sr"), ([sl (SCombined (SClass (SElement None) (lit "highlight")) (lit " ") (SClass (SElement None) (lit "sr")))], RPair (Some AnsiEscapeCodeRenderer) (Some [((lit "foreground_colour"), VStr (lit "#009926"))])));
  ((lit ".highlight .s1"), ([sl (SCombined (SClass (SElement None) (lit "highlight")) (lit " ") (SClass (SElement None) (lit "s1")))], RPair (Some AnsiEscapeCodeRenderer) (Some [((lit "foreground_colour"), VStr (lit "#dd1144"))])));
  ((lit ".highlight .ss"), ([sl (SCombined (SClass (SElement None) (lit "highlight")) (lit " ") (SClass (SElement None) (lit "ss")))], RPair (Some AnsiEscapeCodeRenderer) (Some [((lit "foreground_colour"), VStr (lit "#990073"))])));
  ((lit ".highlight .bp"), ([sl (SCombined (SClass (SElement None) (lit "highlight")) (lit " ") (SClass (SElement None) (lit "bp")))], RPair (Some AnsiEscapeCodeRenderer) (Some [((lit "foreground_colour"), VStr (lit "#999999"))])));
  ((lit ".highlight .vc"), ([sl (SCombined (SClass (SElement None) (lit "highlight")) (lit " ") (SClass (SElement None) (lit "vc")))], RPair (Some AnsiEscapeCodeRenderer) (Some [((lit "foreground_colour"), VStr (lit "#008080"))])));
  ((lit ".highlight .vg"), ([sl (SCombined (SClass (SElement None) (lit "highlight")) (lit " ") (SClass (SElement None) (lit "vg")))], RPair (Some AnsiEscapeCodeRenderer) (Some [((lit "foreground_colour"), VStr (lit "#008080"))])));
  ((lit ".highlight .vi"), ([sl (SCombined (SClass (SElement None) (lit "highlight")) (lit " ") (SClass (SElement None) (lit "vi")))], RPair (Some AnsiEscapeCodeRenderer) (Some [((lit "foreground_colour"), VStr (lit "#008080"))])));
  ((lit ".highlight .il"), ([sl (SCombined (SClass (SElement None) (lit "highlight")) (lit " ") (SClass (SElement None) (lit "il")))], RPair (Some AnsiEscapeCodeRenderer) (Some [((lit "foreground_colour"), VStr (lit "#009999"))])));
  ((lit ".highlight .gc"), ([sl (SCombined (SClass (SElement None) (lit "highlight")) (lit " ") (SClass (SElement None) (lit "gc")))], RPair (Some AnsiEscapeCodeRenderer) (Some [((lit "foreground_colour"), VStr (lit "#999")); ((lit "background-colour"), VStr (lit "#EAF2F5"))])))].

(** code_themes/iced_gopher.py:7-70 [renderers] *)
Definition theme_iced_gopher : table :=
[  ((lit ".hll"), ([sl (SClass (SElement None) (lit "hll"))], RPair (Some AnsiEscapeCodeRenderer) (Some [((lit "background_colour"), VStr (lit "red"))])));
  ((lit ".c"), ([sl (SClass (SElement None) (lit "c"))], RPair (Some AnsiEscapeCodeRenderer) (Some [((lit "foreground_colour"), VStr (lit "bright_black"))])));
  ((lit ".err"), ([sl (SClass (SElement None) (lit "err"))], RPair (Some AnsiEscapeCodeRenderer) (Some [((lit "foreground_colour"), VStr (lit "bright_white")); ((lit "background_colour"), VStr (lit "red"))])));
  ((lit ".k"), ([sl (SClass (SElement None) (lit "k"))], RPair (Some AnsiEscapeCodeRenderer) (Some [((lit "foreground_colour"), VStr (lit "bright_magenta"))])));
  ((lit ".l"), ([sl (SClass (SElement None) (lit "l"))], RPair (Some AnsiEscapeCodeRenderer) (Some [((lit "foreground_colour"), VStr (lit "bright_blue"))])));
  ((lit ".o"), ([sl (SClass (SElement None) (lit "o"))], RPair (Some AnsiEscapeCodeRenderer) (Some [((lit "foreground_colour"), VStr (lit "bright_magenta"))])));
  ((lit ".cm"), ([sl (SClass (SElement None) (lit "cm"))], RPair (Some AnsiEscapeCodeRenderer) (Some [((lit "foreground_colour"), VStr (lit "bright_black"))])));
  ((lit ".cp"), ([sl (SClass (SElement None) (lit "cp"))], RPair (Some AnsiEscapeCodeRenderer) (Some [((lit "foreground_colour"), VStr (lit "bright_black"))])));
  ((lit ".c1"), ([sl (SClass (SElement None) (lit "c1"))], RPair (Some AnsiEscapeCodeRenderer) (Some [((lit "foreground_colour"), VStr (lit "bright_black"))])));
  ((lit ".cs"), ([sl (SClass (SElement None) (lit "cs"))], RPair (Some AnsiEscapeCodeRenderer) (Some [((lit "foreground_colour"), VStr (lit "bright_black"))])));
  ((lit ".ge"), ([sl (SClass (SElement None) (lit "ge"))], RPair (Some AnsiEscapeCodeRenderer) (Some [((lit "italic"), VBool true)])));
  ((lit ".gs"), ([sl (SClass (SElement None) (lit "gs"))], RPair (Some AnsiEscapeCodeRenderer) (Some [((lit "bold"), VBool true)])));
  ((lit ".kc"), ([sl (SClass (SElement None) (lit "kc"))], RPair (Some AnsiEscapeCodeRenderer) (Some [((lit "foreground_colour"), VStr (lit "bright_magenta"))])));
  ((lit ".kd"), ([sl (SClass (SElement None) (lit "kd"))], RPair (Some AnsiEscapeCodeRenderer) (Some [((lit "foreground_colour"), VStr (lit "bright_magenta"))])));
  ((lit ".kn"), ([sl (SClass (SElement None) (lit "kn"))], RPair (Some AnsiEscapeCodeRenderer) (Some [((lit "foreground_colour"), VStr (lit "bright_magenta"))])));
  ((lit ".kp"), ([sl (SClass (SElement None) (lit "kp"))], RPair (Some AnsiEscapeCodeRenderer) (Some [((lit "foreground_colour"), VStr (lit "bright_magenta"))])));
  ((lit ".kr"), ([sl (SClass (SElement None) (lit "kr"))], RPair (Some AnsiEscapeCodeRenderer) (Some [((lit "foreground_colour"), VStr (lit "bright_magenta"))])));
  ((lit ".kt"), ([sl (SClass (SElement None) (lit "kt"))], RPair (Some AnsiEscapeCodeRenderer) (Some [((lit "foreground_colour"), VStr (lit "bright_magenta"))])));
  ((lit ".ld"), ([sl (SClass (SElement None) (lit "ld"))], RPair (Some AnsiEscapeCodeRenderer) (Some [((lit "foreground_colour"), VStr (lit "bright_blue"))])));
  ((lit ".m"), ([sl (SClass (SElement None) (lit "m"))], RPair (Some AnsiEscapeCodeRenderer) (Some [((lit "foreground_colour"), VStr (lit "bright_blue"))])));
  ((lit ".s"), ([sl (SClass (SElement None) (lit "s"))], RPair (Some AnsiEscapeCodeRenderer) (Some [((lit "foreground_colour"), VStr (lit "bright_blue"))])));
  ((lit ".na"), ([sl (SClass (SElement None) (lit "na"))], RPair (Some AnsiEscapeCodeRenderer) (Some [((lit "foreground_colour"), VStr (lit "bright_magenta"))])));
  ((lit ".nb"), ([sl (SClass (SElement None) (lit "nb"))], RPair (Some AnsiEscapeCodeRenderer) (Some [((lit "foreground_colour"), VStr (lit "bright_magenta"))])));
  ((lit ".nc"), ([sl (SClass (SElement None) (lit "nc"))], RPair (Some AnsiEscapeCodeRenderer) (Some [((lit "foreground_colour"), VStr (lit "bright_cyan")); ((lit "bold"), VBool true)])));
  ((lit ".no"), ([sl (SClass (SElement None) (lit "no"))], RPair (Some AnsiEscapeCodeRenderer) (Some [((lit "foreground_colour"), VStr (lit "bright_magenta"))])));
  ((lit ".nd"), ([sl (SClass (SElement None) (lit "nd"))], RPair (Some AnsiEscapeCodeRenderer) (Some [((lit "foreground_colour"), VStr (lit "cyan")); ((lit "italic"), VBool true)])));
  ((lit ".ni"), ([sl (SClass (SElement None) (lit "ni"))], RPair (Some AnsiEscapeCodeRenderer) (Some [((lit "foreground_colour"), VStr (lit "bright_magenta"))])));
  ((lit ".ne"), ([sl (SClass (SElement None) (lit "ne"))], RPair (Some AnsiEscapeCodeRenderer) (Some [((lit "foreground_colour"), VStr (lit "bright_magenta"))])));
  ((lit ".nf"), ([sl (SClass (SElement None) (lit "nf"))], RPair (Some AnsiEscapeCodeRenderer) (Some [((lit "foreground_colour"), VStr (lit "bright_cyan"))])));
  ((lit ".nl"), ([sl (SClass (SElement None) (lit "nl"))], RPair (Some AnsiEscapeCodeRenderer) (Some [((lit "foreground_colour"), VStr (lit "bright_magenta"))])));
  ((lit ".nn"), ([sl (SClass (SElement None) (lit "nn"))], RPair (Some AnsiEscapeCodeRenderer) (Some [((lit "foreground_colour"), VStr (lit "bright_magenta"))])));
  ((lit ".nx"), ([sl (SClass (SElement None) (lit "nx"))], RPair (Some AnsiEscapeCodeRenderer) (Some [((lit "foreground_colour"), VStr (lit "bright_magenta"))])));
  ((lit ".py"), ([sl (SClass (SElement None) (lit "py"))], RPair (Some AnsiEscapeCodeRenderer) (Some [((lit "foreground_colour"), VStr (lit "bright_magenta"))])));
  ((lit ".nt"), ([sl (SClass (SElement None) (lit "nt"))], RPair (Some AnsiEscapeCodeRenderer) (Some [((lit "foreground_colour"), VStr (lit "bright_magenta"))])));
  ((lit ".nv"), ([sl (SClass (SElement None) (lit "nv"))], RPair (Some AnsiEscapeCodeRenderer) (Some [((lit "foreground_colour"), VStr (lit "bright_magenta"))])));
  ((lit ".ow"), ([sl (SClass (SElement None) (lit "ow"))], RPair (Some AnsiEscapeCodeRenderer) (Some [((lit "foreground_colour"), VStr (lit "bright_magenta"))])));
  ((lit ".mf"), ([sl (SClass (SElement None) (lit "mf"))], RPair (Some AnsiEscapeCodeRenderer) (Some [((lit "foreground_colour"), VStr (lit "bright_blue"))])));
  ((lit ".mh"), ([sl (SClass (SElement None) (lit "mh"))], RPair (Some AnsiEscapeCodeRenderer) (Some [((lit "foreground_colour"), VStr (lit "bright_blue"))])));
  ((lit ".mi"), ([sl (SClass (SElement None) (lit "mi"))], RPair (Some AnsiEscapeCodeRenderer) (Some [((lit "foreground_colour"), VStr (lit "bright_blue"))])));
  ((lit ".mo"), ([sl (SClass (SElement None) (lit "mo"))], RPair (Some AnsiEscapeCodeRenderer) (Some [((lit "foreground_colour"), VStr (lit "bright_blue"))])));
  ((lit ".sb"), ([sl (SClass (SElement None) (lit "sb"))], RPair (Some AnsiEscapeCodeRenderer) (Some [((lit "foreground_colour"), VStr (lit "bright_blue"))])));
  ((lit ".sc"), ([sl (SClass (SElement None) (lit "sc"))], RPair (Some AnsiEscapeCodeRenderer) (Some [((lit "foreground_colour"), VStr (lit "bright_blue"))])));
  ((lit ".sd"), ([sl (SClass (SElement None) (lit "sd"))], RPair (Some AnsiEscapeCodeRenderer) (Some [((lit "foreground_colour"), VStr (lit "bright_blue"))])));
  ((lit ".s2"), ([sl (SClass (SElement None) (lit "s2"))], RPair (Some AnsiEscapeCodeRenderer) (Some [((lit "foreground_colour"), VStr (lit "bright_blue"))])));
  ((lit ".se"), ([sl (SClass (SElement None) (lit "se"))], RPair (Some AnsiEscapeCodeRenderer) (Some [((lit "foreground_colour"), VStr (lit "blue"))])));
  ((lit ".sh"), ([sl (SClass (SElement None) (lit "sh"))], RPair (Some AnsiEscapeCodeRenderer) (Some [((lit "foreground_colour"), VStr (lit "bright_blue"))])));
  ((lit ".si"), ([sl (SClass (SElement None) (lit "si"))], RPair (Some AnsiEscapeCodeRenderer) (Some [((lit "foreground_colour"), VStr (lit "bright_blue"))])));
  ((lit ".sx"), ([sl (SClass (SElement None) (lit "sx"))], RPair (Some AnsiEscapeCodeRenderer) (Some [((lit "foreground_colour"), VStr (lit "bright_blue"))])));
  ((lit ".sr"), ([sl (SClass (SElement None) (lit "sr"))], RPair (Some AnsiEscapeCodeRenderer) (Some [((lit "foreground_colour"), VStr (lit "bright_blue"))])));
  ((lit ".s1"), ([sl (SClass (SElement None) (lit "s1"))], RPair (Some AnsiEscapeCodeRenderer) (Some [((lit "foreground_colour"), VStr (lit "bright_blue"))])));
  ((lit ".ss"), ([sl (SClass (SElement None) (lit "ss"))], RPair (Some AnsiEscapeCodeRenderer) (Some [((lit "foreground_colour"), VStr (lit "bright_blue"))])));
  ((lit ".bp"), ([sl (SClass (SElement None) (lit "bp"))], RPair (Some AnsiEscapeCodeRenderer) (Some [((lit "foreground_colour"), VStr (lit "bright_magenta"))])));
  ((lit ".vc"), ([sl (SClass (SElement None) (lit "vc"))], RPair (Some AnsiEscapeCodeRenderer) (Some [((lit "foreground_colour"), VStr (lit "bright_magenta"))])));
  ((lit ".vg"), ([sl (SClass (SElement None) (lit "vg"))], RPair (Some AnsiEscapeCodeRenderer) (Some [((lit "foreground_colour"), VStr (lit "bright_magenta"))])));
  ((lit ".vi"), ([sl (SClass (SElement None) (lit "vi"))], RPair (Some AnsiEscapeCodeRenderer) (Some [((lit "foreground_colour"), VStr (lit "bright_magenta"))])));
  ((lit ".il"), ([sl (SClass (SElement None) (lit "il"))], RPair (Some AnsiEscapeCodeRenderer) (Some [((lit "foreground_colour"), VStr (lit "bright_blue"))])));
  ((lit ".gd"), ([sl (SClass (SElement None) (lit "gd"))], RPair (Some AnsiEscapeCodeRenderer) (Some [((lit "foreground_colour"), VStr (lit "red"))])));
  ((lit ".gi"), ([sl (SClass (SElement None) (lit "gi"))], RPair (Some AnsiEscapeCodeRenderer) (Some [((lit "foreground_colour"), VStr (lit "green"))])))].

(** code_themes/monokai.py:15-78 [renderers] *)
Definition theme_monokai : table :=
[  ((lit ".hll"), ([sl (SClass (SElement None) (lit "hll"))], RPair (Some AnsiEscapeCodeRenderer) (Some [((lit "background_colour"), VStr (lit "#49483e"))])));
  ((lit ".c"), ([sl (SClass (SElement None) (lit "c"))], RPair (Some AnsiEscapeCodeRenderer) (Some [((lit "foreground_colour"), VStr (lit "#75715e"))])));
  ((lit ".err"), ([sl (SClass (SElement None) (lit "err"))], RPair (Some AnsiEscapeCodeRenderer) (Some [((lit "foreground_colour"), VStr (lit "#960050")); ((lit "background_colour"), VStr (lit "#1e0010"))])));
  ((lit ".k"), ([sl (SClass (SElement None) (lit "k"))], RPair (Some AnsiEscapeCodeRenderer) (Some [((lit "foreground_colour"), VStr (lit "#66d9ef"))])));
  ((lit ".l"), ([sl (SClass (SElement None) (lit "l"))], RPair (Some AnsiEscapeCodeRenderer) (Some [((lit "foreground_colour"), VStr (lit "#ae81ff"))])));
  ((lit ".n"), ([sl (SClass (SElement None) (lit "n"))], RPair (Some AnsiEscapeCodeRenderer) (Some [((lit "foreground_colour"), VStr (lit "#f8f8f2"))])));
  ((lit ".o"), ([sl (SClass (SElement None) (lit "o"))], RPair (Some AnsiEscapeCodeRenderer) (Some [((lit "foreground_colour"), VStr (lit "#f92672"))])));
  ((lit ".p"), ([sl (SClass (SElement None) (lit "p"))], RPair (Some AnsiEscapeCodeRenderer) (Some [((lit "foreground_colour"), VStr (lit "#f8f8f2"))])));
  ((lit ".cm"), ([sl (SClass (SElement None) (lit "cm"))], RPair (Some AnsiEscapeCodeRenderer) (Some [((lit "foreground_colour"), VStr (lit "#75715e"))])));
  ((lit ".cp"), ([sl (SClass (SElement None) (lit "cp"))], RPair (Some AnsiEscapeCodeRenderer) (Some [((lit "foreground_colour"), VStr (lit "#75715e"))])));
  ((lit ".c1"), ([sl (SClass (SElement None) (lit "c1"))], RPair (Some AnsiEscapeCodeRenderer) (Some [((lit "foreground_colour"), VStr (lit "#75715e"))])));
  ((lit ".cs"), ([sl (SClass (SElement None) (lit "cs"))], RPair (Some AnsiEscapeCodeRenderer) (Some [((lit "foreground_colour"), VStr (lit "#75715e"))])));
  ((lit ".ge"), ([sl (SClass (SElement None) (lit "ge"))], RPair (Some AnsiEscapeCodeRenderer) (Some [((lit "italic"), VBool true)])));
  ((lit ".gs"), ([sl (SClass (SElement None) (lit "gs"))], RPair (Some AnsiEscapeCodeRenderer) (Some [((lit "bold"), VBool true)])));
  ((lit ".kc"), ([sl (SClass (SElement None) (lit "kc"))], RPair (Some AnsiEscapeCodeRenderer) (Some [((lit "foreground_colour"), VStr (lit "#66d9ef"))])));
  ((lit ".kd"), ([sl (SClass (SElement None) (lit "kd"))], RPair (Some AnsiEscapeCodeRenderer) (Some [((lit "foreground_colour"), VStr (lit "#66d9ef"))])));
  ((lit ".kn"), ([sl (SClass (SElement None) (lit "kn"))], RPair (Some AnsiEscapeCodeRenderer) (Some [((lit "foreground_colour"), VStr (lit "#f92672"))])));
  ((lit ".kp"), ([sl (SClass (SElement None) (lit "kp"))], RPair (Some AnsiEscapeCodeRenderer) (Some [((lit "foreground_colour"), VStr (lit "#66d9ef"))])));
  ((lit ".kr"), ([sl (SClass (SElement None) (lit "kr"))], RPair (Some AnsiEscapeCodeRenderer) (Some [((lit "foreground_colour"), VStr (lit "#66d9ef"))])));
  ((lit ".kt"), ([sl (SClass (SElement None) (lit "kt"))], RPair (Some AnsiEscapeCodeRenderer) (Some [((lit "foreground_colour"), VStr (lit "#66d9ef"))])));
  ((lit ".ld"), ([sl (SClass (SElement None) (lit "ld"))], RPair (Some AnsiEscapeCodeRenderer) (Some [((lit "foreground_colour"), VStr (lit "#e6db74"))])));
  ((lit ".m"), ([sl (SClass (SElement None) (lit "m"))], RPair (Some AnsiEscapeCodeRenderer) (Some [((lit "foreground_colour"), VStr (lit "#ae81ff"))])));
  ((lit ".s"), ([sl (SClass (SElement None) (lit "s"))], RPair (Some AnsiEscapeCodeRenderer) (Some [((lit "foreground_colour"), VStr (lit "#e6db74"))])));
  ((lit ".na"), ([sl (SClass (SElement None) (lit "na"))], RPair (Some AnsiEscapeCodeRenderer) (Some [((lit "foreground_colour"), VStr (lit "#a6e22e"))])));
  ((lit ".nb"), ([sl (SClass (SElement None) (lit "nb"))], RPair (Some AnsiEscapeCodeRenderer) (Some [((lit "foreground_colour"), VStr (lit "#f8f8f2"))])));
  ((lit ".nc"), ([sl (SClass (SElement None) (lit "nc"))], RPair (Some AnsiEscapeCodeRenderer) (Some [((lit "foreground_colour"), VStr (lit "#a6e22e"))])));
  ((lit ".no"), ([sl (SClass (SElement None) (lit "no"))], RPair (Some AnsiEscapeCodeRenderer) (Some [((lit "foreground_colour"), VStr (lit "#66d9ef"))])));
  ((lit ".nd"), ([sl (SClass (SElement None) (lit "nd"))], RPair (Some AnsiEscapeCodeRenderer) (Some [((lit "foreground_colour"), VStr (lit "#a6e22e"))])));
  ((lit ".ni"), ([sl (SClass (SElement None) (lit "ni"))], RPair (Some AnsiEscapeCodeRenderer) (Some [((lit "foreground_colour"), VStr (lit "#f8f8f2"))])));
  ((lit ".ne"), ([sl (SClass (SElement None) (lit "ne"))], RPair (Some AnsiEscapeCodeRenderer) (Some [((lit "foreground_colour"), VStr (lit "#a6e22e"))])));
  ((lit ".nf"), ([sl (SClass (SElement None) (lit "nf"))], RPair (Some AnsiEscapeCodeRenderer) (Some [((lit "foreground_colour"), VStr (lit "#a6e22e"))])));
  ((lit ".nl"), ([sl (SClass (SElement None) (lit "nl"))], RPair (Some AnsiEscapeCodeRenderer) (Some [((lit "foreground_colour"), VStr (lit "#f8f8f2"))])));
  ((lit ".nn"), ([sl (SClass (SElement None) (lit "nn"))], RPair (Some AnsiEscapeCodeRenderer) (Some [((lit "foreground_colour"), VStr (lit "#f8f8f2"))])));
  ((lit ".nx"), ([sl (SClass (SElement None) (lit "nx"))], RPair (Some AnsiEscapeCodeRenderer) (Some [((lit "foreground_colour"), VStr (lit "#a6e22e"))])));
  ((lit ".py"), ([sl (SClass (SElement None) (lit "py"))], RPair (Some AnsiEscapeCodeRenderer) (Some [((lit "foreground_colour"), VStr (lit "#f8f8f2"))])));
  ((lit ".nt"), ([sl (SClass (SElement None) (lit "nt"))], RPair (Some AnsiEscapeCodeRenderer) (Some [((lit "foreground_colour"), VStr (lit "#f92672"))])));
  ((lit ".nv"), ([sl (SClass (SElement None) (lit "nv"))], RPair (Some AnsiEscapeCodeRenderer) (Some [((lit "foreground_colour"), VStr (lit "#f8f8f2"))])));
  ((lit ".ow"), ([sl (SClass (SElement None) (lit "ow"))], RPair (Some AnsiEscapeCodeRenderer) (Some [((lit "foreground_colour"), VStr (lit "#f92672"))])));
  ((lit ".w"), ([sl (SClass (SElement None) (lit "w"))], RPair (Some AnsiEscapeCodeRenderer) (Some [((lit "foreground_colour"), VStr (lit "#f8f8f2"))])));
  ((lit ".mf"), ([sl (SClass (SElement None) (lit "mf"))], RPair (Some AnsiEscapeCodeRenderer) (Some [((lit "foreground_colour"), VStr (lit "#ae81ff"))])));
  ((lit ".mh"), ([sl (SClass (SElement None) (lit "mh"))], RPair (Some AnsiEscapeCodeRenderer) (Some [((lit "foreground_colour"), VStr (lit "#ae81ff"))])));
  ((lit ".mi"), ([sl (SClass (SElement None) (lit "mi"))], RPair (Some AnsiEscapeCodeRenderer) (Some [((lit "foreground_colour"), VStr (lit "#ae81ff"))])));
  ((lit ".mo"), ([sl (SClass (SElement None) (lit "mo"))], RPair (Some AnsiEscapeCodeRenderer) (Some [((lit "foreground_colour"), VStr (lit "#ae81ff"))])));
  ((lit ".sb"), ([sl (SClass (SElement None) (lit "sb"))], RPair (Some AnsiEscapeCodeRenderer) (Some [((lit "foreground_colour"), VStr (lit "#e6db74"))])));
  ((lit ".sc"), ([sl (SClass (SElement None) (lit "sc"))], RPair (Some AnsiEscapeCodeRenderer) (Some [((lit "foreground_colour"), VStr (lit "#e6db74"))])));
  ((lit ".sd"), ([sl (SClass (SElement None) (lit "sd"))], RPair (Some AnsiEscapeCodeRenderer) (Some [((lit "foreground_colour"), VStr (lit "#e6db74"))])));
  ((lit ".s2"), ([sl (SClass (SElement None) (lit "s2"))], RPair (Some AnsiEscapeCodeRenderer) (Some [((lit "foreground_colour"), VStr (lit "#e6db74"))])));
  ((lit ".se"), ([sl (SClass (SElement None) (lit "se"))], RPair (Some AnsiEscapeCodeRenderer) (Some [((lit "foreground_colour"), VStr (lit "#ae81ff"))])));
  ((lit ".sh"), ([sl (SClass (SElement None) (lit "sh"))], RPair (Some AnsiEscapeCodeRenderer) (Some [((lit "foreground_colour"), VStr (lit "#e6db74"))])));
  ((lit ".si"), ([sl (SClass (SElement None) (lit "si"))], RPair (Some AnsiEscapeCodeRenderer) (Some [((lit "foreground_colour"), VStr (lit "#e6db74"))])));
  ((lit ".sx"), ([sl (SClass (SElement None) (lit "sx"))], RPair (Some AnsiEscapeCodeRenderer) (Some [((lit "foreground_colour"), VStr (lit "#e6db74"))])));
  ((lit ".sr"), ([sl (SClass (SElement None) (lit "sr"))], RPair (Some AnsiEscapeCodeRenderer) (Some [((lit "foreground_colour"), VStr (lit "#e6db74"))])));
  ((lit ".s1"), ([sl (SClass (SElement None) (lit "s1"))], RPair (Some AnsiEscapeCodeRenderer) (Some [((lit "foreground_colour"), VStr (lit "#e6db74"))])));
  ((lit ".ss"), ([sl (SClass (SElement None) (lit "ss"))], RPair (Some AnsiEscapeCodeRenderer) (Some [((lit "foreground_colour"), VStr (lit "#e6db74"))])));
  ((lit ".bp"), ([sl (SClass (SElement None) (lit "bp"))], RPair (Some AnsiEscapeCodeRenderer) (Some [((lit "foreground_colour"), VStr (lit "#f8f8f2"))])));
  ((lit ".vc"), ([sl (SClass (SElement None) (lit "vc"))], RPair (Some AnsiEscapeCodeRenderer) (Some [((lit "foreground_colour"), VStr (lit "#f8f8f2"))])));
  ((lit ".vg"), ([sl (SClass (SElement None) (lit "vg"))], RPair (Some AnsiEscapeCodeRenderer) (Some [((lit "foreground_colour"), VStr (lit "#f8f8f2"))])));
  ((lit ".vi"), ([sl (SClass (SElement None) (lit "vi"))], RPair (Some AnsiEscapeCodeRenderer) (Some [((lit "foreground_colour"), VStr (lit "#f8f8f2"))])));
  ((lit ".il"), ([sl (SClass (SElement None) (lit "il"))], RPair (Some AnsiEscapeCodeRenderer) (Some [((lit "foreground_colour"), VStr (lit "#ae81ff"))])));
  ((lit ".gu"), ([sl (SClass (SElement None) (lit "gu"))], RPair (Some AnsiEscapeCodeRenderer) (Some [((lit "foreground_colour"), VStr (lit "#75715e"))])));
  ((lit ".gd"), ([sl (SClass (SElement None) (lit "gd"))], RPair (Some AnsiEscapeCodeRenderer) (Some [((lit "foreground_colour"), VStr (lit "#f92672"))])));
  ((lit ".gi"), ([sl (SClass (SElement None) (lit "gi"))], RPair (Some AnsiEscapeCodeRenderer) (Some [((lit "foreground_colour"), VStr (lit "#a6e22e"))])))].

(** code_themes/monokai_ansi.py:6-71 [renderers] *)
Definition theme_monokai_ansi : table :=
[  ((lit ".hll"), ([sl (SClass (SElement None) (lit "hll"))], RPair (Some AnsiEscapeCodeRenderer) (Some [((lit "background_colour"), VStr (lit "#49483e"))])));
  ((lit ".c"), ([sl (SClass (SElement None) (lit "c"))], RPair (Some AnsiEscapeCodeRenderer) (Some [((lit "foreground_colour"), VStr (lit "bright_black"))])));
  ((lit ".err"), ([sl (SClass (SElement None) (lit "err"))], RPair (Some AnsiEscapeCodeRenderer) (Some [((lit "foreground_colour"), VStr (lit "bright_white")); ((lit "background_colour"), VStr (lit "red"))])));
  ((lit ".k"), ([sl (SClass (SElement None) (lit "k"))], RPair (Some AnsiEscapeCodeRenderer) (Some [((lit "foreground_colour"), VStr (lit "bright_cyan"))])));
  ((lit ".l"), ([sl (SClass (SElement None) (lit "l"))], RPair (Some AnsiEscapeCodeRenderer) (Some [((lit "foreground_colour"), VStr (lit "bright_magenta"))])));
  ((lit ".o"), ([sl (SClass (SElement None) (lit "o"))], RPair (Some AnsiEscapeCodeRenderer) (Some [((lit "foreground_colour"), VStr (lit "red"))])));
  ((lit ".cm"), ([sl (SClass (SElement None) (lit "cm"))], RPair (Some AnsiEscapeCodeRenderer) (Some [((lit "foreground_colour"), VStr (lit "bright_black"))])));
  ((lit ".cp"), ([sl (SClass (SElement None) (lit "cp"))], RPair (Some AnsiEscapeCodeRenderer) (Some [((lit "foreground_colour"), VStr (lit "bright_black"))])));
  ((lit ".c1"), ([sl (SClass (SElement None) (lit "c1"))], RPair (Some AnsiEscapeCodeRenderer) (Some [((lit "foreground_colour"), VStr (lit "bright_black"))])));
  ((lit ".cs"), ([sl (SClass (SElement None) (lit "cs"))], RPair (Some AnsiEscapeCodeRenderer) (Some [((lit "foreground_colour"), VStr (lit "bright_black"))])));
  ((lit ".ge"), ([sl (SClass (SElement None) (lit "ge"))], RPair (Some AnsiEscapeCodeRenderer) (Some [((lit "italic"), VBool true)])));
  ((lit ".gs"), ([sl (SClass (SElement None) (lit "gs"))], RPair (Some AnsiEscapeCodeRenderer) (Some [((lit "bold"), VBool true)])));
  ((lit ".kc"), ([sl (SClass (SElement None) (lit "kc"))], RPair (Some AnsiEscapeCodeRenderer) (Some [((lit "foreground_colour"), VStr (lit "bright_cyan"))])));
  ((lit ".kd"), ([sl (SClass (SElement None) (lit "kd"))], RPair (Some AnsiEscapeCodeRenderer) (Some [((lit "foreground_colour"), VStr (lit "bright_cyan"))])));
  ((lit ".kn"), ([sl (SClass (SElement None) (lit "kn"))], RPair (Some AnsiEscapeCodeRenderer) (Some [((lit "foreground_colour"), VStr (lit "red"))])));
  ((lit ".kp"), ([sl (SClass (SElement None) (lit "kp"))], RPair (Some AnsiEscapeCodeRenderer) (Some [((lit "foreground_colour"), VStr (lit "bright_cyan"))])));
  ((lit ".kr"), ([sl (SClass (SElement None) (lit "kr"))], RPair (Some AnsiEscapeCodeRenderer) (Some [((lit "foreground_colour"), VStr (lit "bright_cyan"))])));
  ((lit ".kt"), ([sl (SClass (SElement None) (lit "kt"))], RPair (Some AnsiEscapeCodeRenderer) (Some [((lit "foreground_colour"), VStr (lit "bright_cyan"))])));
  ((lit ".ld"), ([sl (SClass (SElement None) (lit "ld"))], RPair (Some AnsiEscapeCodeRenderer) (Some [((lit "foreground_colour"), VStr (lit "yellow"))])));
  ((lit ".m"), ([sl (SClass (SElement None) (lit "m"))], RPair (Some AnsiEscapeCodeRenderer) (Some [((lit "foreground_colour"), VStr (lit "bright_magenta"))])));
  ((lit ".s"), ([sl (SClass (SElement None) (lit "s"))], RPair (Some AnsiEscapeCodeRenderer) (Some [((lit "foreground_colour"), VStr (lit "yellow"))])));
  ((lit ".na"), ([sl (SClass (SElement None) (lit "na"))], RPair (Some AnsiEscapeCodeRenderer) (Some [((lit "foreground_colour"), VStr (lit "bright_green"))])));
  ((lit ".nc"), ([sl (SClass (SElement None) (lit "nc"))], RPair (Some AnsiEscapeCodeRenderer) (Some [((lit "foreground_colour"), VStr (lit "bright_green"))])));
  ((lit ".no"), ([sl (SClass (SElement None) (lit "no"))], RPair (Some AnsiEscapeCodeRenderer) (Some [((lit "foreground_colour"), VStr (lit "bright_cyan"))])));
  ((lit ".nd"), ([sl (SClass (SElement None) (lit "nd"))], RPair (Some AnsiEscapeCodeRenderer) (Some [((lit "foreground_colour"), VStr (lit "bright_green"))])));
  ((lit ".ne"), ([sl (SClass (SElement None) (lit "ne"))], RPair (Some AnsiEscapeCodeRenderer) (Some [((lit "foreground_colour"), VStr (lit "bright_green"))])));
  ((lit ".nf"), ([sl (SClass (SElement None) (lit "nf"))], RPair (Some AnsiEscapeCodeRenderer) (Some [((lit "foreground_colour"), VStr (lit "bright_green"))])));
  ((lit ".nx"), ([sl (SClass (SElement None) (lit "nx"))], RPair (Some AnsiEscapeCodeRenderer) (Some [((lit "foreground_colour"), VStr (lit "bright_green"))])));
  ((lit ".nt"), ([sl (SClass (SElement None) (lit "nt"))], RPair (Some AnsiEscapeCodeRenderer) (Some [((lit "foreground_colour"), VStr (lit "red"))])));
  ((lit ".ow"), ([sl (SClass (SElement None) (lit "ow"))], RPair (Some AnsiEscapeCodeRenderer) (Some [((lit "foreground_colour"), VStr (lit "red"))])));
  ((lit ".mf"), ([sl (SClass (SElement None) (lit "mf"))], RPair (Some AnsiEscapeCodeRenderer) (Some [((lit "foreground_colour"), VStr (lit "bright_magenta"))])));
  ((lit ".mh"), ([sl (SClass (SElement None) (lit "mh"))], RPair (Some AnsiEscapeCodeRenderer) (Some [((lit "foreground_colour"), VStr (lit "bright_magenta"))])));
  ((lit ".mi"), ([sl (SClass (SElement None) (lit "mi"))], RPair (Some AnsiEscapeCodeRenderer) (Some [((lit "foreground_colour"), VStr (lit "bright_magenta"))])));
  ((lit ".mo"), ([sl (SClass (SElement None) (lit "mo"))], RPair (Some AnsiEscapeCodeRenderer) (Some [((lit "foreground_colour"), VStr (lit "bright_magenta"))])));
  ((lit ".sb"), ([sl (SClass (SElement None) (lit "sb"))], RPair (Some AnsiEscapeCodeRenderer) (Some [((lit "foreground_colour"), VStr (lit "yellow"))])));
  ((lit ".sc"), ([sl (SClass (SElement None) (lit "sc"))], RPair (Some AnsiEscapeCodeRenderer) (Some [((lit "foreground_colour"), VStr (lit "yellow"))])));
  ((lit ".sd"), ([sl (SClass (SElement None) (lit "sd"))], RPair (Some AnsiEscapeCodeRenderer) (Some [((lit "foreground_colour"), VStr (lit "yellow"))])));
  ((lit ".s2"), ([sl (SClass (SElement None) (lit "s2"))], RPair (Some AnsiEscapeCodeRenderer) (Some [((lit "foreground_colour"), VStr (lit "yellow"))])));
  ((lit ".se"), ([sl (SClass (SElement None) (lit "se"))], RPair (Some AnsiEscapeCodeRenderer) (Some [((lit "foreground_colour"), VStr (lit "bright_magenta"))])));
  ((lit ".sh"), ([sl (SClass (SElement None) (lit "sh"))], RPair (Some AnsiEscapeCodeRenderer) (Some [((lit "foreground_colour"), VStr (lit "yellow"))])));
  ((lit ".si"), ([sl (SClass (SElement None) (lit "si"))], RPair (Some AnsiEscapeCodeRenderer) (Some [((lit "foreground_colour"), VStr (lit "yellow"))])));
  ((lit ".sx"), ([sl (SClass (SElement None) (lit "sx"))], RPair (Some AnsiEscapeCodeRenderer) (Some [((lit "foreground_colour"), VStr (lit "yellow"))])));
  ((lit ".sr"), ([sl (SClass (SElement None) (lit "sr"))], RPair (Some AnsiEscapeCodeRenderer) (Some [((lit "foreground_colour"), VStr (lit "yellow"))])));
  ((lit ".s1"), ([sl (SClass (SElement None) (lit "s1"))], RPair (Some AnsiEscapeCodeRenderer) (Some [((lit "foreground_colour"), VStr (lit "yellow"))])));
  ((lit ".ss"), ([sl (SClass (SElement None) (lit "ss"))], RPair (Some AnsiEscapeCodeRenderer) (Some [((lit "foreground_colour"), VStr (lit "yellow"))])));
  ((lit ".il"), ([sl (SClass (SElement None) (lit "il"))], RPair (Some AnsiEscapeCodeRenderer) (Some [((lit "foreground_colour"), VStr (lit "bright_magenta"))])));
  ((lit ".gu"), ([sl (SClass (SElement None) (lit "gu"))], RPair (Some AnsiEscapeCodeRenderer) (Some [((lit "foreground_colour"), VStr (lit "bright_black"))])));
  ((lit ".gd"), ([sl (SClass (SElement None) (lit "gd"))], RPair (Some AnsiEscapeCodeRenderer) (Some [((lit "foreground_colour"), VStr (lit "red"))])));
  ((lit ".gi"), ([sl (SClass (SElement None) (lit "gi"))], RPair (Some AnsiEscapeCodeRenderer) (Some [((lit "foreground_colour"), VStr (lit "bright_green"))])))].

(** code_themes/tomorrow.py:15-80 [renderers] *)
Definition theme_tomorrow : table :=
[  ((lit ".hll"), ([sl (SClass (SElement None) (lit "hll"))], RPair (Some AnsiEscapeCodeRenderer) (Some [((lit "background_colour"), VStr (lit "#d6d6d6"))])));
  ((lit ".c"), ([sl (SClass (SElement None) (lit "c"))], RPair (Some AnsiEscapeCodeRenderer) (Some [((lit "foreground_colour"), VStr (lit "#8e908c"))])));
  ((lit ".err"), ([sl (SClass (SElement None) (lit "err"))], RPair (Some AnsiEscapeCodeRenderer) (Some [((lit "foreground_colour"), VStr (lit "#c82829"))])));
  ((lit ".k"), ([sl (SClass (SElement None) (lit "k"))], RPair (Some AnsiEscapeCodeRenderer) (Some [((lit "foreground_colour"), VStr (lit "#8959a8"))])));
  ((lit ".l"), ([sl (SClass (SElement None) (lit "l"))], RPair (Some AnsiEscapeCodeRenderer) (Some [((lit "foreground_colour"), VStr (lit "#f5871f"))])));
  ((lit ".n"), ([sl (SClass (SElement None) (lit "n"))], RPair (Some AnsiEscapeCodeRenderer) (Some [((lit "foreground_colour"), VStr (lit "#4d4d4c"))])));
  ((lit ".o"), ([sl (SClass (SElement None) (lit "o"))], RPair (Some AnsiEscapeCodeRenderer) (Some [((lit "foreground_colour"), VStr (lit "#3e999f"))])));
  ((lit ".p"), ([sl (SClass (SElement None) (lit "p"))], RPair (Some AnsiEscapeCodeRenderer) (Some [((lit "foreground_colour"), VStr (lit "#4d4d4c"))])));
  ((lit ".cm"), ([sl (SClass (SElement None) (lit "cm"))], RPair (Some AnsiEscapeCodeRenderer) (Some [((lit "foreground_colour"), VStr (lit "#8e908c"))])));
  ((lit ".cp"), ([sl (SClass (SElement None) (lit "cp"))], RPair (Some AnsiEscapeCodeRenderer) (Some [((lit "foreground_colour"), VStr (lit "#8e908c"))])));
  ((lit ".c1"), ([sl (SClass (SElement None) (lit "c1"))], RPair (Some AnsiEscapeCodeRenderer) (Some [((lit "foreground_colour"), VStr (lit "#8e908c"))])));
  ((lit ".cs"), ([sl (SClass (SElement None) (lit "cs"))], RPair (Some AnsiEscapeCodeRenderer) (Some [((lit "foreground_colour"), VStr (lit "#8e908c"))])));
  ((lit ".gd"), ([sl (SClass (SElement None) (lit "gd"))], RPair (Some AnsiEscapeCodeRenderer) (Some [((lit "foreground_colour"), VStr (lit "#c82829"))])));
  ((lit ".ge"), ([sl (SClass (SElement None) (lit "ge"))], RPair (Some AnsiEscapeCodeRenderer) (Some [((lit "italic"), VBool true)])));
  ((lit ".gh"), ([sl (SClass (SElement None) (lit "gh"))], RPair (Some AnsiEscapeCodeRenderer) (Some [((lit "foreground_colour"), VStr (lit "#4d4d4c")); ((lit "bold"), VBool true)])));
  ((lit ".gi"), ([sl (SClass (SElement None) (lit "gi"))], RPair (Some AnsiEscapeCodeRenderer) (Some [((lit "foreground_colour"), VStr (lit "#718c00"))])));
  ((lit ".gp"), ([sl (SClass (SElement None) (lit "gp"))], RPair (Some AnsiEscapeCodeRenderer) (Some [((lit "foreground_colour"), VStr (lit "#8e908c")); ((lit "bold"), VBool true)])));
  ((lit ".gs"), ([sl (SClass (SElement None) (lit "gs"))], RPair (Some AnsiEscapeCodeRenderer) (Some [((lit "bold"), VBool true)])));
  ((lit ".gu"), ([sl (SClass (SElement None) (lit "gu"))], RPair (Some AnsiEscapeCodeRenderer) (Some [((lit "foreground_colour"), VStr (lit "#3e999f")); ((lit "bold"), VBool true)])));
  ((lit ".kc"), ([sl (SClass (SElement None) (lit "kc"))], RPair (Some AnsiEscapeCodeRenderer) (Some [((lit "foreground_colour"), VStr (lit "#8959a8"))])));
  ((lit ".kd"), ([sl (SClass (SElement None) (lit "kd"))], RPair (Some AnsiEscapeCodeRenderer) (Some [((lit "foreground_colour"), VStr (lit "#8959a8"))])));
  ((lit ".kn"), ([sl (SClass (SElement None) (lit "kn"))], RPair (Some AnsiEscapeCodeRenderer) (Some [((lit "foreground_colour"), VStr (lit "#3e999f"))])));
  ((lit ".kp"), ([sl (SClass (SElement None) (lit "kp"))], RPair (Some AnsiEscapeCodeRenderer) (Some [((lit "foreground_colour"), VStr (lit "#8959a8"))])));
  ((lit ".kr"), ([sl (SClass (SElement None) (lit "kr"))], RPair (Some AnsiEscapeCodeRenderer) (Some [((lit "foreground_colour"), VStr (lit "#8959a8"))])));
  ((lit ".kt"), ([sl (SClass (SElement None) (lit "kt"))], RPair (Some AnsiEscapeCodeRenderer) (Some [((lit "foreground_colour"), VStr (lit "#eab700"))])));
  ((lit ".ld"), ([sl (SClass (SElement None) (lit "ld"))], RPair (Some AnsiEscapeCodeRenderer) (Some [((lit "foreground_colour"), VStr (lit "#718c00"))])));
  ((lit ".m"), ([sl (SClass (SElement None) (lit "m"))], RPair (Some AnsiEscapeCodeRenderer) (Some [((lit "foreground_colour"), VStr (lit "#f5871f"))])));
  ((lit ".s"), ([sl (SClass (SElement None) (lit "s"))], RPair (Some AnsiEscapeCodeRenderer) (Some [((lit "foreground_colour"), VStr (lit "#718c00"))])));
  ((lit ".na"), ([sl (SClass (SElement None) (lit "na"))], RPair (Some AnsiEscapeCodeRenderer) (Some [((lit "foreground_colour"), VStr (lit "#4271ae"))])));
  ((lit ".nb"), ([sl (SClass (SElement None) (lit "nb"))], RPair (Some AnsiEscapeCodeRenderer) (Some [((lit "foreground_colour"), VStr (lit "#4d4d4c"))])));
  ((lit ".nc"), ([sl (SClass (SElement None) (lit "nc"))], RPair (Some AnsiEscapeCodeRenderer) (Some [((lit "foreground_colour"), VStr (lit "#eab700"))])));
  ((lit ".no"), ([sl (SClass (SElement None) (lit "no"))], RPair (Some AnsiEscapeCodeRenderer) (Some [((lit "foreground_colour"), VStr (lit "#c82829"))])));
  ((lit ".nd"), ([sl (SClass (SElement None) (lit "nd"))], RPair (Some AnsiEscapeCodeRenderer) (Some [((lit "foreground_colour"), VStr (lit "#3e999f"))])));
  ((lit ".ni"), ([sl (SClass (SElement None) (lit "ni"))], RPair (Some AnsiEscapeCodeRenderer) (Some [((lit "foreground_colour"), VStr (lit "#4d4d4c"))])));
  ((lit ".ne"), ([sl (SClass (SElement None) (lit "ne"))], RPair (Some AnsiEscapeCodeRenderer) (Some [((lit "foreground_colour"), VStr (lit "#c82829"))])));
  ((lit ".nf"), ([sl (SClass (SElement None) (lit "nf"))], RPair (Some AnsiEscapeCodeRenderer) (Some [((lit "foreground_colour"), VStr (lit "#4271ae"))])));
  ((lit ".nl"), ([sl (SClass (SElement None) (lit "nl"))], RPair (Some AnsiEscapeCodeRenderer) (Some [((lit "foreground_colour"), VStr (lit "#4d4d4c"))])));
  ((lit ".nn"), ([sl (SClass (SElement None) (lit "nn"))], RPair (Some AnsiEscapeCodeRenderer) (Some [((lit "foreground_colour"), VStr (lit "#eab700"))])));
  ((lit ".nx"), ([sl (SClass (SElement None) (lit "nx"))], RPair (Some AnsiEscapeCodeRenderer) (Some [((lit "foreground_colour"), VStr (lit "#4271ae"))])));
  ((lit ".py"), ([sl (SClass (SElement None) (lit "py"))], RPair (Some AnsiEscapeCodeRenderer) (Some [((lit "foreground_colour"), VStr (lit "#4d4d4c"))])));
  ((lit ".nt"), ([sl (SClass (SElement None) (lit "nt"))], RPair (Some AnsiEscapeCodeRenderer) (Some [((lit "foreground_colour"), VStr (lit "#3e999f"))])));
  ((lit ".nv"), ([sl (SClass (SElement None) (lit "nv"))], RPair (Some AnsiEscapeCodeRenderer) (Some [((lit "foreground_colour"), VStr (lit "#c82829"))])));
  ((lit ".ow"), ([sl (SClass (SElement None) (lit "ow"))], RPair (Some AnsiEscapeCodeRenderer) (Some [((lit "foreground_colour"), VStr (lit "#3e999f"))])));
  ((lit ".w"), ([sl (SClass (SElement None) (lit "w"))], RPair (Some AnsiEscapeCodeRenderer) (Some [((lit "foreground_colour"), VStr (lit "#4d4d4c"))])));
  ((lit ".mf"), ([sl (SClass (SElement None) (lit "mf"))], RPair (Some AnsiEscapeCodeRenderer) (Some [((lit "foreground_colour"), VStr (lit "#f5871f"))])));
  ((lit ".mh"), ([sl (SClass (SElement None) (lit "mh"))], RPair (Some AnsiEscapeCodeRenderer) (Some [((lit "foreground_colour"), VStr (lit "#f5871f"))])));
  ((lit ".mi"), ([sl (SClass (SElement None) (lit "mi"))], RPair (Some AnsiEscapeCodeRenderer) (Some [((lit "foreground_colour"), VStr (lit "#f5871f"))])));
  ((lit ".mo"), ([sl (SClass (SElement None) (lit "mo"))], RPair (Some AnsiEscapeCodeRenderer) (Some [((lit "foreground_colour"), VStr (lit "#f5871f"))])));
  ((lit ".sb"), ([sl (SClass (SElement None) (lit "sb"))], RPair (Some AnsiEscapeCodeRenderer) (Some [((lit "foreground_colour"), VStr (lit "#718c00"))])));
  ((lit ".sc"), ([sl (SClass (SElement None) (lit "sc"))], RPair (Some AnsiEscapeCodeRenderer) (Some [((lit "foreground_colour"), VStr (lit "#4d4d4c"))])));
  ((lit ".sd"), ([sl (SClass (SElement None) (lit "sd"))], RPair (Some AnsiEscapeCodeRenderer) (Some [((lit "foreground_colour"), VStr (lit "#8e908c"))])));
  ((lit ".s2"), ([sl (SClass (SElement None) (lit "s2"))], RPair (Some AnsiEscapeCodeRenderer) (Some [((lit "foreground_colour"), VStr (lit "#718c00"))])));
  ((lit ".se"), ([sl (SClass (SElement None) (lit "se"))], RPair (Some AnsiEscapeCodeRenderer) (Some [((lit "foreground_colour"), VStr (lit "#f5871f"))])));
  ((lit ".sh"), ([sl (SClass (SElement None) (lit "sh"))], RPair (Some AnsiEscapeCodeRenderer) (Some [((lit "foreground_colour"), VStr (lit "#718c00"))])));
  ((lit ".si"), ([sl (SClass (SElement None) (lit "si"))], RPair (Some AnsiEscapeCodeRenderer) (Some [((lit "foreground_colour"), VStr (lit "#f5871f"))])));
  ((lit ".sx"), ([sl (SClass (SElement None) (lit "sx"))], RPair (Some AnsiEscapeCodeRenderer) (Some [((lit "foreground_colour"), VStr (lit "#718c00"))])));
  ((lit ".sr"), ([sl (SClass (SElement None) (lit "sr"))], RPair (Some AnsiEscapeCodeRenderer) (Some [((lit "foreground_colour"), VStr (lit "#718c00"))])));
  ((lit ".s1"), ([sl (SClass (SElement None) (lit "s1"))], RPair (Some AnsiEscapeCodeRenderer) (Some [((lit "foreground_colour"), VStr (lit "#718c00"))])));
  ((lit ".ss"), ([sl (SClass (SElement None) (lit "ss"))], RPair (Some AnsiEscapeCodeRenderer) (Some [((lit "foreground_colour"), VStr (lit "#718c00"))])));
  ((lit ".bp"), ([sl (SClass (SElement None) (lit "bp"))], RPair (Some AnsiEscapeCodeRenderer) (Some [((lit "foreground_colour"), VStr (lit "#4d4d4c"))])));
  ((lit ".vc"), ([sl (SClass (SElement None) (lit "vc"))], RPair (Some AnsiEscapeCodeRenderer) (Some [((lit "foreground_colour"), VStr (lit "#c82829"))])));
  ((lit ".vg"), ([sl (SClass (SElement None) (lit "vg"))], RPair (Some AnsiEscapeCodeRenderer) (Some [((lit "foreground_colour"), VStr (lit "#c82829"))])));
  ((lit ".vi"), ([sl (SClass (SElement None) (lit "vi"))], RPair (Some AnsiEscapeCodeRenderer) (Some [((lit "foreground_colour"), VStr (lit "#c82829"))])));
  ((lit ".il"), ([sl (SClass (SElement None) (lit "il"))], RPair (Some AnsiEscapeCodeRenderer) (Some [((lit "foreground_colour"), VStr (lit "#f5871f"))])))].

(** code_themes/tomorrow_night.py:15-80 [renderers] *)
Definition theme_tomorrow_night : table :=
[  ((lit ".hll"), ([sl (SClass (SElement None) (lit "hll"))], RPair (Some AnsiEscapeCodeRenderer) (Some [((lit "background_colour"), VStr (lit "#373b41"))])));
  ((lit ".c"), ([sl (SClass (SElement None) (lit "c"))], RPair (Some AnsiEscapeCodeRenderer) (Some [((lit "foreground_colour"), VStr (lit "#969896"))])));
  ((lit ".err"), ([sl (SClass (SElement None) (lit "err"))], RPair (Some AnsiEscapeCodeRenderer) (Some [((lit "foreground_colour"), VStr (lit "#cc6666"))])));
  ((lit ".k"), ([sl (SClass (SElement None) (lit "k"))], RPair (Some AnsiEscapeCodeRenderer) (Some [((lit "foreground_colour"), VStr (lit "#b294bb"))])));
  ((lit ".l"), ([sl (SClass (SElement None) (lit "l"))], RPair (Some AnsiEscapeCodeRenderer) (Some [((lit "foreground_colour"), VStr (lit "#de935f"))])));
  ((lit ".n"), ([sl (SClass (SElement None) (lit "n"))], RPair (Some AnsiEscapeCodeRenderer) (Some [((lit "foreground_colour"), VStr (lit "#c5c8c6"))])));
  ((lit ".o"), ([sl (SClass (SElement None) (lit "o"))], RPair (Some AnsiEscapeCodeRenderer) (Some [((lit "foreground_colour"), VStr (lit "#8abeb7"))])));
  ((lit ".p"), ([sl (SClass (SElement None) (lit "p"))], RPair (Some AnsiEscapeCodeRenderer) (Some [((lit "foreground_colour"), VStr (lit "#c5c8c6"))])));
  ((lit ".cm"), ([sl (SClass (SElement None) (lit "cm"))], RPair (Some AnsiEscapeCodeRenderer) (Some [((lit "foreground_colour"), VStr (lit "#969896"))])));
  ((lit ".cp"), ([sl (SClass (SElement None) (lit "cp"))], RPair (Some AnsiEscapeCodeRenderer) (Some [((lit "foreground_colour"), VStr (lit "#969896"))])));
  ((lit ".c1"), ([sl (SClass (SElement None) (lit "c1"))], RPair (Some AnsiEscapeCodeRenderer) (Some [((lit "foreground_colour"), VStr (lit "#969896"))])));
  ((lit ".cs"), ([sl (SClass (SElement None) (lit "cs"))], RPair (Some AnsiEscapeCodeRenderer) (Some [((lit "foreground_colour"), VStr (lit "#969896"))])));
  ((lit ".gd"), ([sl (SClass (SElement None) (lit "gd"))], RPair (Some AnsiEscapeCodeRenderer) (Some [((lit "foreground_colour"), VStr (lit "#cc6666"))])));
  ((lit ".ge"), ([sl (SClass (SElement None) (lit "ge"))], RPair (Some AnsiEscapeCodeRenderer) (Some [((lit "italic"), VBool true)])));
  ((lit ".gh"), ([sl (SClass (SElement None) (lit "gh"))], RPair (Some AnsiEscapeCodeRenderer) (Some [((lit "foreground_colour"), VStr (lit "#c5c8c6")); ((lit "bold"), VBool true)])));
  ((lit ".gi"), ([sl (SClass (SElement None) (lit "gi"))], RPair (Some AnsiEscapeCodeRenderer) (Some [((lit "foreground_colour"), VStr (lit "#b5bd68"))])));
  ((lit ".gp"), ([sl (SClass (SElement None) (lit "gp"))], RPair (Some AnsiEscapeCodeRenderer) (Some [((lit "foreground_colour"), VStr (lit "#969896")); ((lit "bold"), VBool true)])));
  ((lit ".gs"), ([sl (SClass (SElement None) (lit "gs"))], RPair (Some AnsiEscapeCodeRenderer) (Some [((lit "bold"), VBool true)])));
  ((lit ".gu"), ([sl (SClass (SElement None) (lit "gu"))], RPair (Some AnsiEscapeCodeRenderer) (Some [((lit "foreground_colour"), VStr (lit "#8abeb7")); ((lit "bold"), VBool true)])));
  ((lit ".kc"), ([sl (SClass (SElement None) (lit "kc"))], RPair (Some AnsiEscapeCodeRenderer) (Some [((lit "foreground_colour"), VStr (lit "#b294bb"))])));
  ((lit ".kd"), ([sl (SClass (SElement None) (lit "kd"))], RPair (Some AnsiEscapeCodeRenderer) (Some [((lit "foreground_colour"), VStr (lit "#b294bb"))])));
  ((lit ".kn"), ([sl (SClass (SElement None) (lit "kn"))], RPair (Some AnsiEscapeCodeRenderer) (Some [((lit "foreground_colour"), VStr (lit "#8abeb7"))])));
  ((lit ".kp"), ([sl (SClass (SElement None) (lit "kp"))], RPair (Some AnsiEscapeCodeRenderer) (Some [((lit "foreground_colour"), VStr (lit "#b294bb"))])));
  ((lit ".kr"), ([sl (SClass (SElement None) (lit "kr"))], RPair (Some AnsiEscapeCodeRenderer) (Some [((lit "foreground_colour"), VStr (lit "#b294bb"))])));
  ((lit ".kt"), ([sl (SClass (SElement None) (lit "kt"))], RPair (Some AnsiEscapeCodeRenderer) (Some [((lit "foreground_colour"), VStr (lit "#f0c674"))])));
  ((lit ".ld"), ([sl (SClass (SElement None) (lit "ld"))], RPair (Some AnsiEscapeCodeRenderer) (Some [((lit "foreground_colour"), VStr (lit "#b5bd68"))])));
  ((lit ".m"), ([sl (SClass (SElement None) (lit "m"))], RPair (Some AnsiEscapeCodeRenderer) (Some [((lit "foreground_colour"), VStr (lit "#de935f"))])));
  ((lit ".s"), ([sl (SClass (SElement None) (lit "s"))], RPair (Some AnsiEscapeCodeRenderer) (Some [((lit "foreground_colour"), VStr (lit "#b5bd68"))])));
  ((lit ".na"), ([sl (SClass (SElement None) (lit "na"))], RPair (Some AnsiEscapeCodeRenderer) (Some [((lit "foreground_colour"), VStr (lit "#81a2be"))])));
  ((lit ".nb"), ([sl (SClass (SElement None) (lit "nb"))], RPair (Some AnsiEscapeCodeRenderer) (Some [((lit "foreground_colour"), VStr (lit "#c5c8c6"))])));
  ((lit ".nc"), ([sl (SClass (SElement None) (lit "nc"))], RPair (Some AnsiEscapeCodeRenderer) (Some [((lit "foreground_colour"), VStr (lit "#f0c674"))])));
  ((lit ".no"), ([sl (SClass (SElement None) (lit "no"))], RPair (Some AnsiEscapeCodeRenderer) (Some [((lit "foreground_colour"), VStr (lit "#cc6666"))])));
  ((lit ".nd"), ([sl (SClass (SElement None) (lit "nd"))], RPair (Some AnsiEscapeCodeRenderer) (Some [((lit "foreground_colour"), VStr (lit "#8abeb7"))])));
  ((lit ".ni"), ([sl (SClass (SElement None) (lit "ni"))], RPair (Some AnsiEscapeCodeRenderer) (Some [((lit "foreground_colour"), VStr (lit "#c5c8c6"))])));
  ((lit ".ne"), ([sl (SClass (SElement None) (lit "ne"))], RPair (Some AnsiEscapeCodeRenderer) (Some [((lit "foreground_colour"), VStr (lit "#cc6666"))])));
  ((lit ".nf"), ([sl (SClass (SElement None) (lit "nf"))], RPair (Some AnsiEscapeCodeRenderer) (Some [((lit "foreground_colour"), VStr (lit "#81a2be"))])));
  ((lit ".nl"), ([sl (SClass (SElement None) (lit "nl"))], RPair (Some AnsiEscapeCodeRenderer) (Some [((lit "foreground_colour"), VStr (lit "#c5c8c6"))])));
  ((lit ".nn"), ([sl (SClass (SElement None) (lit "nn"))], RPair (Some AnsiEscapeCodeRenderer) (Some [((lit "foreground_colour"), VStr (lit "#f0c674"))])));
  ((lit ".nx"), ([sl (SClass (SElement None) (lit "nx"))], RPair (Some AnsiEscapeCodeRenderer) (Some [((lit "foreground_colour"), VStr (lit "#81a2be"))])));
  ((lit ".py"), ([sl (SClass (SElement None) (lit "py"))], RPair (Some AnsiEscapeCodeRenderer) (Some [((lit "foreground_colour"), VStr (lit "#c5c8c6"))])));
  ((lit ".nt"), ([sl (SClass (SElement None) (lit "nt"))], RPair (Some AnsiEscapeCodeRenderer) (Some [((lit "foreground_colour"), VStr (lit "#8abeb7"))])));
  ((lit ".nv"), ([sl (SClass (SElement None) (lit "nv"))], RPair (Some AnsiEscapeCodeRenderer) (Some [((lit "foreground_colour"), VStr (lit "#cc6666"))])));
  ((lit ".ow"), ([sl (SClass (SElement None) (lit "ow"))], RPair (Some AnsiEscapeCodeRenderer) (Some [((lit "foreground_colour"), VStr (lit "#8abeb7"))])));
  ((lit ".w"), ([sl (SClass (SElement None) (lit "w"))], RPair (Some AnsiEscapeCodeRenderer) (Some [((lit "foreground_colour"), VStr (lit "#c5c8c6"))])));
  ((lit ".mf"), ([sl (SClass (SElement None) (lit "mf"))], RPair (Some AnsiEscapeCodeRenderer) (Some [((lit "foreground_colour"), VStr (lit "#de935f"))])));
  ((lit ".mh"), ([sl (SClass (SElement None) (lit "mh"))], RPair (Some AnsiEscapeCodeRenderer) (Some [((lit "foreground_colour"), VStr (lit "#de935f"))])));
  ((lit ".mi"), ([sl (SClass (SElement None) (lit "mi"))], RPair (Some AnsiEscapeCodeRenderer) (Some [((lit "foreground_colour"), VStr (lit "#de935f"))])));
  ((lit ".mo"), ([sl (SClass (SElement None) (lit "mo"))], RPair (Some AnsiEscapeCodeRenderer) (Some [((lit "foreground_colour"), VStr (lit "#de935f"))])));
  ((lit ".sb"), ([sl (SClass (SElement None) (lit "sb"))], RPair (Some AnsiEscapeCodeRenderer) (Some [((lit "foreground_colour"), VStr (lit "#b5bd68"))])));
  ((lit ".sc"), ([sl (SClass (SElement None) (lit "sc"))], RPair (Some AnsiEscapeCodeRenderer) (Some [((lit "foreground_colour"), VStr (lit "#c5c8c6"))])));
  ((lit ".sd"), ([sl (SClass (SElement None) (lit "sd"))], RPair (Some AnsiEscapeCodeRenderer) (Some [((lit "foreground_colour"), VStr (lit "#969896"))])));
  ((lit ".s2"), ([sl (SClass (SElement None) (lit "s2"))], RPair (Some AnsiEscapeCodeRenderer) (Some [((lit "foreground_colour"), VStr (lit "#b5bd68"))])));
  ((lit ".se"), ([sl (SClass (SElement None) (lit "se"))], RPair (Some AnsiEscapeCodeRenderer) (Some [((lit "foreground_colour"), VStr (lit "#de935f"))])));
  ((lit ".sh"), ([sl (SClass (SElement None) (lit "sh"))], RPair (Some AnsiEscapeCodeRenderer) (Some [((lit "foreground_colour"), VStr (lit "#b5bd68"))])));
  ((lit ".si"), ([sl (SClass (SElement None) (lit "si"))], RPair (Some AnsiEscapeCodeRenderer) (Some [((lit "foreground_colour"), VStr (lit "#de935f"))])));
  ((lit ".sx"), ([sl (SClass (SElement None) (lit "sx"))], RPair (Some AnsiEscapeCodeRenderer) (Some [((lit "foreground_colour"), VStr (lit "#b5bd68"))])));
  ((lit ".sr"), ([sl (SClass (SElement None) (lit "sr"))], RPair (Some AnsiEscapeCodeRenderer) (Some [((lit "foreground_colour"), VStr (lit "#b5bd68"))])));
  ((lit ".s1"), ([sl (SClass (SElement None) (lit "s1"))], RPair (Some AnsiEscapeCodeRenderer) (Some [((lit "foreground_colour"), VStr (lit "#b5bd68"))])));
  ((lit ".ss"), ([sl (SClass (SElement None) (lit "ss"))], RPair (Some AnsiEscapeCodeRenderer) (Some [((lit "foreground_colour"), VStr (lit "#b5bd68"))])));
  ((lit ".bp"), ([sl (SClass (SElement None) (lit "bp"))], RPair (Some AnsiEscapeCodeRenderer) (Some [((lit "foreground_colour"), VStr (lit "#c5c8c6"))])));
  ((lit ".vc"), ([sl (SClass (SElement None) (lit "vc"))], RPair (Some AnsiEscapeCodeRenderer) (Some [((lit "foreground_colour"), VStr (lit "#cc6666"))])));
  ((lit ".vg"), ([sl (SClass (SElement None) (lit "vg"))], RPair (Some AnsiEscapeCodeRenderer) (Some [((lit "foreground_colour"), VStr (lit "#cc6666"))])));
  ((lit ".vi"), ([sl (SClass (SElement None) (lit "vi"))], RPair (Some AnsiEscapeCodeRenderer) (Some [((lit "foreground_colour"), VStr (lit "#cc6666"))])));
  ((lit ".il"), ([sl (SClass (SElement None) (lit "il"))], RPair (Some AnsiEscapeCodeRenderer) (Some [((lit "foreground_colour"), VStr (lit "#de935f"))])))].

Definition all_themes : list table := [theme_autumn; theme_darkly; theme_darkly_ansi; theme_github; theme_iced_gopher; theme_monokai; theme_monokai_ansi; theme_tomorrow; theme_tomorrow_night].
Close Scope Z_scope.
