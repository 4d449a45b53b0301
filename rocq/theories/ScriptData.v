(** * Script tables (GENERATED by tools/gen_tables.py; do not edit).

    One definition per module of /repo/aksharamukha/ScriptMap, attribute by
    attribute, before [add_additional_chars] runs.  Slices such as
    [VowelSignMap = VowelMap[1:]] are written out. *)
From Coq Require Import List NArith.
From Verif Require Import PyStr.
Import ListNotations.

Definition table := list (str * list str).

(** aksharamukha/ScriptMap/MainIndic/Ahom.py:5-171 *)
Definition S_MainIndic_Ahom : table :=
  [("VowelMap"%u, ["𑜒"%u; "𑜒𑜡"%u; "𑜒𑜢"%u; "𑜒𑜣"%u; "𑜒𑜤"%u; "𑜒𑜥"%u; "𑜍𑜤ʽ"%u; "𑜍𑜥ʽ"%u;
    "𑜎𑜤ʽ"%u; "𑜎𑜥ʽ"%u; "𑜒𑜦𑜧"%u; "𑜒𑜩"%u; "𑜒𑜦𑜡"%u; "𑜒𑜧𑜨"%u]);
   ("SouthVowelMap"%u, ["𑜒𑜦𑜧ʽ"%u; "𑜒𑜦𑜡ʽ"%u]);
   ("ModernVowelMap"%u, ["𑜒𑜠"%u; "𑜒𑜡ʽ"%u]);
   ("SinhalaVowelMap"%u, ["𑜒𑜦ʽ"%u]);
   ("VowelSignMap"%u, [[0x11721]%N; [0x11722]%N; [0x11723]%N; [0x11724]%N; [0x11725]%N; [0x1171E; 0x11724; 0x2BD]%N; [0x1171E; 0x11725; 0x2BD]%N; [0x1171D; 0x11724; 0x2BD]%N;
    [0x1171D; 0x11725; 0x2BD]%N; [0x11726; 0x11727]%N; [0x11729]%N; [0x11726; 0x11721]%N; [0x11727; 0x11728]%N]);
   ("SouthVowelSignMap"%u, [[0x11726; 0x11727; 0x2BD]%N; [0x11726; 0x11721; 0x2BD]%N]);
   ("ModernVowelSignMap"%u, [[0x11720]%N; [0x11721; 0x2BD]%N]);
   ("SinhalaVowelSignMap"%u, [[0x11726; 0x2BD]%N]);
   ("AyogavahaMap"%u, [[0x1172A; 0x2BD]%N; [0x1172A]%N; "𑜑𑜫ʽ"%u]);
   ("ViramaMap"%u, [[0x1172B]%N]);
   ("ConsonantMap"%u, ["𑜀"%u; "𑜁"%u; "𑜕"%u; "𑜗"%u; "𑜂"%u; "𑝀"%u; "𑜋"%u; "𑜊"%u;
    "𑜙"%u; "𑜐"%u; "𑝁"%u; "𑝂"%u; "𑝃"%u; "𑝄"%u; "𑝅"%u; "𑜄"%u;
    "𑜌"%u; "𑜓"%u; "𑜔"%u; "𑜃"%u; "𑜆"%u; "𑜇"%u; "𑜈"%u; "𑜘"%u;
    "𑜉"%u; "𑜊ʽ"%u; "𑜍"%u; "𑜎"%u; "𑜚"%u; "𑜏ʽ"%u; "𑜏ʽ"%u; "𑜏"%u;
    "𑜑"%u]);
   ("SouthConsonantMap"%u, ["𑝆"%u; "𑝆ʽ"%u; "𑜍ʽ"%u; "𑜃ʽ"%u]);
   ("NuktaConsonantMap"%u, ["𑜀ʽ"%u; "𑜁ʽ"%u; "𑜕ʽ"%u; "𑜊ʽ"%u; "𑜓ʽ"%u; "𑜔ʽ"%u; "𑜇ʽ"%u; "𑜊ʽ"%u]);
   ("SinhalaConsonantMap"%u, [[0x1172A; 0x11715; 0x2BD]%N; [0x1172A; 0x1170A; 0x2BD]%N; [0x1172A; 0x11713; 0x2BD]%N; [0x1172A; 0x11713; 0x2BD]%N; [0x1172A; 0x11708; 0x2BD]%N]);
   ("NuktaMap"%u, ["ʽʽʽʽ"%u]);
   ("OmMap"%u, ["𑜒𑜪𑜨"%u]);
   ("SignMap"%u, ["'"%u; "𑜼"%u; "𑜽"%u]);
   ("Aytham"%u, ["𑜑𑜫ʽʽ"%u]);
   ("NumeralMap"%u, ["𑜰"%u; "𑜱"%u; "𑜲"%u; "𑜳"%u; "𑜴"%u; "𑜵"%u; "𑜶"%u; "𑜷"%u;
    "𑜸"%u; "𑜹"%u])].

(** aksharamukha/ScriptMap/MainIndic/Assamese.py:5-170 *)
Definition S_MainIndic_Assamese : table :=
  [("VowelMap"%u, ["অ"%u; "আ"%u; "ই"%u; "ঈ"%u; "উ"%u; "ঊ"%u; "ঋ"%u; "ৠ"%u;
    "ঌ"%u; "ৡ"%u; "এ"%u; "ঐ"%u; "ও"%u; "ঔ"%u]);
   ("SouthVowelMap"%u, ["এ˘"%u; "ও˘"%u]);
   ("ModernVowelMap"%u, ["এʼ"%u; "আʼ"%u]);
   ("SinhalaVowelMap"%u, ["এˇ"%u]);
   ("VowelSignMap"%u, [[0x9BE]%N; [0x9BF]%N; [0x9C0]%N; [0x9C1]%N; [0x9C2]%N; [0x9C3]%N; [0x9C4]%N; [0x9E2]%N;
    [0x9E3]%N; [0x9C7]%N; [0x9C8]%N; [0x9CB]%N; [0x9CC]%N]);
   ("SouthVowelSignMap"%u, [[0x9C7; 0x2D8]%N; [0x9CB; 0x2D8]%N]);
   ("ModernVowelSignMap"%u, [[0x9C7; 0x2BC]%N; [0x9BE; 0x2BC]%N]);
   ("SinhalaVowelSignMap"%u, [[0x9C7; 0x2C7]%N]);
   ("AyogavahaMap"%u, [[0x981]%N; [0x982]%N; [0x983]%N]);
   ("ViramaMap"%u, [[0x9CD]%N]);
   ("ConsonantMap"%u, ["ক"%u; "খ"%u; "গ"%u; "ঘ"%u; "ঙ"%u; "চ"%u; "ছ"%u; "জ"%u;
    "ঝ"%u; "ঞ"%u; "ট"%u; "ঠ"%u; "ড"%u; "ঢ"%u; "ণ"%u; "ত"%u;
    "থ"%u; "দ"%u; "ধ"%u; "ন"%u; "প"%u; "ফ"%u; "ব"%u; "ভ"%u;
    "ম"%u; "য"%u; "র"%u; "ল"%u; "ৱ"%u; "শ"%u; "ষ"%u; "স"%u;
    "হ"%u]);
   ("SouthConsonantMap"%u, ["ল়"%u; "ষ়"%u; "র়"%u; "ন়"%u]);
   ("NuktaConsonantMap"%u, ["ক়"%u; "খ়"%u; "গ়"%u; "জ়"%u; "ড়"%u; "ঢ়"%u; "ফ়"%u; "য়"%u]);
   ("SinhalaConsonantMap"%u, [[0x981; 0x2C6; 0x997]%N; [0x981; 0x2C6; 0x99C]%N; [0x981; 0x2C6; 0x9A1]%N; [0x981; 0x2C6; 0x9A6]%N; [0x981; 0x2C6; 0x9AC]%N]);
   ("NuktaMap"%u, [[0x9BC]%N]);
   ("OmMap"%u, ["ওঁ"%u]);
   ("SignMap"%u, ["ঽ"%u; "।"%u; "॥"%u]);
   ("Aytham"%u, [[0x983; 0x2BC]%N]);
   ("NumeralMap"%u, ["০"%u; "১"%u; "২"%u; "৩"%u; "৪"%u; "৫"%u; "৬"%u; "৭"%u;
    "৮"%u; "৯"%u])].

(** aksharamukha/ScriptMap/MainIndic/Bengali.py:5-170 *)
Definition S_MainIndic_Bengali : table :=
  [("VowelMap"%u, ["অ"%u; "আ"%u; "ই"%u; "ঈ"%u; "উ"%u; "ঊ"%u; "ঋ"%u; "ৠ"%u;
    "ঌ"%u; "ৡ"%u; "এ"%u; "ঐ"%u; "ও"%u; "ঔ"%u]);
   ("SouthVowelMap"%u, ["এ˘"%u; "ও˘"%u]);
   ("ModernVowelMap"%u, ["এʼ"%u; "আʼ"%u]);
   ("SinhalaVowelMap"%u, ["এˇ"%u]);
   ("VowelSignMap"%u, [[0x9BE]%N; [0x9BF]%N; [0x9C0]%N; [0x9C1]%N; [0x9C2]%N; [0x9C3]%N; [0x9C4]%N; [0x9E2]%N;
    [0x9E3]%N; [0x9C7]%N; [0x9C8]%N; [0x9CB]%N; [0x9CC]%N]);
   ("SouthVowelSignMap"%u, [[0x9C7; 0x2D8]%N; [0x9CB; 0x2D8]%N]);
   ("ModernVowelSignMap"%u, [[0x9C7; 0x2BC]%N; [0x9BE; 0x2BC]%N]);
   ("SinhalaVowelSignMap"%u, [[0x9C7; 0x2C7]%N]);
   ("AyogavahaMap"%u, [[0x981]%N; [0x982]%N; [0x983]%N]);
   ("ViramaMap"%u, [[0x9CD]%N]);
   ("ConsonantMap"%u, ["ক"%u; "খ"%u; "গ"%u; "ঘ"%u; "ঙ"%u; "চ"%u; "ছ"%u; "জ"%u;
    "ঝ"%u; "ঞ"%u; "ট"%u; "ঠ"%u; "ড"%u; "ঢ"%u; "ণ"%u; "ত"%u;
    "থ"%u; "দ"%u; "ধ"%u; "ন"%u; "প"%u; "ফ"%u; "ব"%u; "ভ"%u;
    "ম"%u; "য"%u; "র"%u; "ল"%u; "ভ়"%u; "শ"%u; "ষ"%u; "স"%u;
    "হ"%u]);
   ("SouthConsonantMap"%u, ["ল়"%u; "ষ়"%u; "র়"%u; "ন়"%u]);
   ("NuktaConsonantMap"%u, ["ক়"%u; "খ়"%u; "গ়"%u; "জ়"%u; "ড়"%u; "ঢ়"%u; "ফ়"%u; "য়"%u]);
   ("SinhalaConsonantMap"%u, [[0x981; 0x2C6; 0x997]%N; [0x981; 0x2C6; 0x99C]%N; [0x981; 0x2C6; 0x9A1]%N; [0x981; 0x2C6; 0x9A6]%N; [0x981; 0x2C6; 0x9AC]%N]);
   ("NuktaMap"%u, [[0x9BC]%N]);
   ("OmMap"%u, ["ওঁ"%u]);
   ("SignMap"%u, ["ঽ"%u; "।"%u; "॥"%u]);
   ("Aytham"%u, [[0x983; 0x2BC]%N]);
   ("NumeralMap"%u, ["০"%u; "১"%u; "২"%u; "৩"%u; "৪"%u; "৫"%u; "৬"%u; "৭"%u;
    "৮"%u; "৯"%u])].

(** aksharamukha/ScriptMap/MainIndic/BengaliRaBa.py:5-170 *)
Definition S_MainIndic_BengaliRaBa : table :=
  [("VowelMap"%u, ["অ"%u; "আ"%u; "ই"%u; "ঈ"%u; "উ"%u; "ঊ"%u; "ঋ"%u; "ৠ"%u;
    "ঌ"%u; "ৡ"%u; "এ"%u; "ঐ"%u; "ও"%u; "ঔ"%u]);
   ("SouthVowelMap"%u, ["এ˘"%u; "ও˘"%u]);
   ("ModernVowelMap"%u, ["এʼ"%u; "আʼ"%u]);
   ("SinhalaVowelMap"%u, ["এˇ"%u]);
   ("VowelSignMap"%u, [[0x9BE]%N; [0x9BF]%N; [0x9C0]%N; [0x9C1]%N; [0x9C2]%N; [0x9C3]%N; [0x9C4]%N; [0x9E2]%N;
    [0x9E3]%N; [0x9C7]%N; [0x9C8]%N; [0x9CB]%N; [0x9CC]%N]);
   ("SouthVowelSignMap"%u, [[0x9C7; 0x2D8]%N; [0x9CB; 0x2D8]%N]);
   ("ModernVowelSignMap"%u, [[0x9C7; 0x2BC]%N; [0x9BE; 0x2BC]%N]);
   ("SinhalaVowelSignMap"%u, [[0x9C7; 0x2C7]%N]);
   ("AyogavahaMap"%u, [[0x981]%N; [0x982]%N; [0x983]%N]);
   ("ViramaMap"%u, [[0x9CD]%N]);
   ("ConsonantMap"%u, ["ক"%u; "খ"%u; "গ"%u; "ঘ"%u; "ঙ"%u; "চ"%u; "ছ"%u; "জ"%u;
    "ঝ"%u; "ঞ"%u; "ট"%u; "ঠ"%u; "ড"%u; "ঢ"%u; "ণ"%u; "ত"%u;
    "থ"%u; "দ"%u; "ধ"%u; "ন"%u; "প"%u; "ফ"%u; "ৰ"%u; "ভ"%u;
    "ম"%u; "য"%u; "র"%u; "ল"%u; "ব"%u; "শ"%u; "ষ"%u; "স"%u;
    "হ"%u]);
   ("SouthConsonantMap"%u, ["ল়"%u; "ষ়"%u; "র়"%u; "ন়"%u]);
   ("NuktaConsonantMap"%u, ["ক়"%u; "খ়"%u; "গ়"%u; "জ়"%u; "ড়"%u; "ঢ়"%u; "ফ়"%u; "য়"%u]);
   ("SinhalaConsonantMap"%u, [[0x981; 0x2C6; 0x997]%N; [0x981; 0x2C6; 0x99C]%N; [0x981; 0x2C6; 0x9A1]%N; [0x981; 0x2C6; 0x9A6]%N; [0x981; 0x2C6; 0x9AC]%N]);
   ("NuktaMap"%u, [[0x9BC]%N]);
   ("OmMap"%u, ["ওঁ"%u]);
   ("SignMap"%u, ["ঽ"%u; "।"%u; "॥"%u]);
   ("Aytham"%u, [[0x983; 0x2BC]%N]);
   ("NumeralMap"%u, ["০"%u; "১"%u; "২"%u; "৩"%u; "৪"%u; "৫"%u; "৬"%u; "৭"%u;
    "৮"%u; "৯"%u])].

(** aksharamukha/ScriptMap/MainIndic/Bhaiksuki.py:5-171 *)
Definition S_MainIndic_Bhaiksuki : table :=
  [("VowelMap"%u, ["𑰀"%u; "𑰁"%u; "𑰂"%u; "𑰃"%u; "𑰄"%u; "𑰅"%u; "𑰆"%u; "𑰇"%u;
    "𑰈"%u; "𑰈ʽ"%u; "𑰊"%u; "𑰋"%u; "𑰌"%u; "𑰍"%u]);
   ("SouthVowelMap"%u, ["𑰊ʽ"%u; "𑰌ʽ"%u]);
   ("ModernVowelMap"%u, ["𑰊ʽ"%u; "𑰁ʽ"%u]);
   ("SinhalaVowelMap"%u, ["𑰊ʽ"%u]);
   ("VowelSignMap"%u, [[0x11C2F]%N; [0x11C30]%N; [0x11C31]%N; [0x11C32]%N; [0x11C33]%N; [0x11C34]%N; [0x11C35]%N; [0x11C36]%N;
    [0x11C36; 0x2BD]%N; [0x11C38]%N; [0x11C39]%N; [0x11C3A]%N; [0x11C3B]%N]);
   ("SouthVowelSignMap"%u, [[0x11C38; 0x2BD]%N; [0x11C3A; 0x2BD]%N]);
   ("ModernVowelSignMap"%u, [[0x11C38; 0x2BD]%N; [0x11C2F; 0x2BD]%N]);
   ("SinhalaVowelSignMap"%u, [[0x11C38; 0x2BD]%N]);
   ("AyogavahaMap"%u, [[0x11C3C]%N; [0x11C3D]%N; [0x11C3E]%N]);
   ("ViramaMap"%u, [[0x11C3F]%N]);
   ("ConsonantMap"%u, ["𑰎"%u; "𑰏"%u; "𑰐"%u; "𑰑"%u; "𑰒"%u; "𑰓"%u; "𑰔"%u; "𑰕"%u;
    "𑰖"%u; "𑰗"%u; "𑰘"%u; "𑰙"%u; "𑰚"%u; "𑰛"%u; "𑰜"%u; "𑰝"%u;
    "𑰞"%u; "𑰟"%u; "𑰠"%u; "𑰡"%u; "𑰢"%u; "𑰣"%u; "𑰤"%u; "𑰥"%u;
    "𑰦"%u; "𑰧"%u; "𑰨"%u; "𑰩"%u; "𑰪"%u; "𑰫"%u; "𑰬"%u; "𑰭"%u;
    "𑰮"%u]);
   ("SouthConsonantMap"%u, ["𑰩ʽ"%u; "𑰩ʽ"%u; "𑰨ʽ"%u; "𑰡ʽ"%u]);
   ("NuktaConsonantMap"%u, ["𑰎ʽ"%u; "𑰏ʽ"%u; "𑰐ʽ"%u; "𑰕ʽ"%u; "𑰚ʽ"%u; "𑰛ʽ"%u; "𑰣ʽ"%u; "𑰧ʽ"%u]);
   ("SinhalaConsonantMap"%u, [[0x11C3C; 0x2BD; 0x11C10]%N; [0x11C3C; 0x2BD; 0x11C15]%N; [0x11C3C; 0x2BD; 0x11C1A]%N; [0x11C3C; 0x2BD; 0x11C1F]%N; [0x11C3C; 0x2BD; 0x11C24]%N]);
   ("NuktaMap"%u, ["ʽʽʽ"%u]);
   ("OmMap"%u, ["𑰌𑰼"%u]);
   ("SignMap"%u, ["𑱀"%u; "𑱁"%u; "𑱂"%u]);
   ("Aytham"%u, [[0x11C3E; 0x2BD]%N]);
   ("NumeralMap"%u, ["𑱐"%u; "𑱑"%u; "𑱒"%u; "𑱓"%u; "𑱔"%u; "𑱕"%u; "𑱖"%u; "𑱗"%u;
    "𑱘"%u; "𑱙"%u])].

(** aksharamukha/ScriptMap/MainIndic/Brahmi.py:5-170 *)
Definition S_MainIndic_Brahmi : table :=
  [("VowelMap"%u, ["𑀅"%u; "𑀆"%u; "𑀇"%u; "𑀈"%u; "𑀉"%u; "𑀊"%u; "𑀋"%u; "𑀌"%u;
    "𑀍"%u; "𑀎"%u; "𑀏"%u; "𑀐"%u; "𑀑"%u; "𑀒"%u]);
   ("SouthVowelMap"%u, ["𑀏ʽ"%u; "𑀑ʽ"%u]);
   ("ModernVowelMap"%u, ["𑀏ʽ"%u; "𑀆ʽ"%u]);
   ("SinhalaVowelMap"%u, ["𑀏ʽ"%u]);
   ("VowelSignMap"%u, [[0x11038]%N; [0x1103A]%N; [0x1103B]%N; [0x1103C]%N; [0x1103D]%N; [0x1103E]%N; [0x1103F]%N; [0x11040]%N;
    [0x11041]%N; [0x11042]%N; [0x11043]%N; [0x11044]%N; [0x11045]%N]);
   ("SouthVowelSignMap"%u, [[0x11042; 0x2BD]%N; [0x11044; 0x2BD]%N]);
   ("ModernVowelSignMap"%u, [[0x11042; 0x2BD]%N; [0x11038; 0x2BD]%N]);
   ("SinhalaVowelSignMap"%u, [[0x11042; 0x2BD]%N]);
   ("AyogavahaMap"%u, [[0x11000]%N; [0x11001]%N; [0x11002]%N]);
   ("ViramaMap"%u, [[0x11046]%N]);
   ("ConsonantMap"%u, ["𑀓"%u; "𑀔"%u; "𑀕"%u; "𑀖"%u; "𑀗"%u; "𑀘"%u; "𑀙"%u; "𑀚"%u;
    "𑀛"%u; "𑀜"%u; "𑀝"%u; "𑀞"%u; "𑀟"%u; "𑀠"%u; "𑀡"%u; "𑀢"%u;
    "𑀣"%u; "𑀤"%u; "𑀥"%u; "𑀦"%u; "𑀧"%u; "𑀨"%u; "𑀩"%u; "𑀪"%u;
    "𑀫"%u; "𑀬"%u; "𑀭"%u; "𑀮"%u; "𑀯"%u; "𑀰"%u; "𑀱"%u; "𑀲"%u;
    "𑀳"%u]);
   ("SouthConsonantMap"%u, ["𑀴"%u; "𑀴ʽ"%u; "𑀭ʽ"%u; "𑀦ʽ"%u]);
   ("NuktaConsonantMap"%u, ["𑀓ʽ"%u; "𑀔ʽ"%u; "𑀕ʽ"%u; "𑀚ʽ"%u; "𑀟ʽ"%u; "𑀠ʽ"%u; "𑀨ʽ"%u; "𑀬ʽ"%u]);
   ("SinhalaConsonantMap"%u, [[0x11000; 0x11015; 0x2BD]%N; [0x11000; 0x1101A; 0x2BD]%N; [0x11000; 0x1101F; 0x2BD]%N; [0x11000; 0x11024; 0x2BD]%N; [0x11000; 0x11029; 0x2BD]%N]);
   ("NuktaMap"%u, ["ʽʽʽʽ"%u]);
   ("OmMap"%u, ["𑀑𑀁"%u]);
   ("SignMap"%u, ["ʽʽ"%u; "𑁇"%u; "𑁈"%u]);
   ("Aytham"%u, [[0x11002; 0x2BD]%N]);
   ("NumeralMap"%u, ["𑁦"%u; "𑁧"%u; "𑁨"%u; "𑁩"%u; "𑁪"%u; "𑁫"%u; "𑁬"%u; "𑁭"%u;
    "𑁮"%u; "𑁯"%u])].

(** aksharamukha/ScriptMap/MainIndic/Chakma.py:7-172 *)
Definition S_MainIndic_Chakma : table :=
  [("VowelMap"%u, ["𑄃"%u; "𑄃𑄧"%u; "𑄃𑄨"%u; "𑄃𑄩"%u; "𑄃𑄪"%u; "𑄃𑄫"%u; "𑄢𑄨ʽ"%u; "𑄢𑄩ʽ"%u;
    "𑅄𑄨ʽ"%u; "𑅄𑄩ʽ"%u; "𑄃𑄬"%u; "𑄃𑄰"%u; "𑄃𑄮"%u; "𑄃𑄯"%u]);
   ("SouthVowelMap"%u, ["𑄃𑄬ʽ"%u; "𑄃𑄮ʽ"%u]);
   ("ModernVowelMap"%u, ["𑄃𑄬𑄬ʽ"%u; "𑄃𑅅"%u]);
   ("SinhalaVowelMap"%u, ["𑄃𑄬ʽ"%u]);
   ("VowelSignMap"%u, [[0x11127]%N; [0x11128]%N; [0x11129]%N; [0x1112A]%N; [0x1112B]%N; [0x11133; 0x11122; 0x11128; 0x2BD]%N; [0x11133; 0x11122; 0x11129; 0x2BD]%N; [0x11133; 0x11144; 0x11128; 0x2BD]%N;
    [0x11133; 0x11144; 0x11129; 0x2BD]%N; [0x1112C]%N; [0x11130]%N; [0x1112E]%N; [0x1112F]%N]);
   ("SouthVowelSignMap"%u, [[0x1112C; 0x2BD]%N; [0x1112E; 0x2BD]%N]);
   ("ModernVowelSignMap"%u, [[0x1112C; 0x1112C]%N; [0x11145]%N]);
   ("SinhalaVowelSignMap"%u, [[0x1112C; 0x2BD]%N]);
   ("AyogavahaMap"%u, [[0x11100]%N; [0x11101]%N; [0x11102]%N]);
   ("ViramaMap"%u, [[0x11134]%N]);
   ("ConsonantMap"%u, ["𑄇"%u; "𑄈"%u; "𑄉"%u; "𑄊"%u; "𑄋"%u; "𑄌"%u; "𑄍"%u; "𑄎"%u;
    "𑄏"%u; "𑄐"%u; "𑄑"%u; "𑄒"%u; "𑄓"%u; "𑄔"%u; "𑄕"%u; "𑄖"%u;
    "𑄗"%u; "𑄘"%u; "𑄙"%u; "𑄚"%u; "𑄛"%u; "𑄜"%u; "𑄝"%u; "𑄞"%u;
    "𑄟"%u; "𑄡"%u; "𑄢"%u; "𑄣"%u; "𑄤"%u; "𑄥ʽ"%u; "𑄥ʽ"%u; "𑄥"%u;
    "𑄦"%u]);
   ("SouthConsonantMap"%u, ["𑄣ʽ"%u; "𑄣ʽ"%u; "𑄢ʽ"%u; "𑄚ʽ"%u]);
   ("NuktaConsonantMap"%u, ["𑄇ʽ"%u; "𑄈ʽ"%u; "𑄉ʽ"%u; "𑄎ʽ"%u; "𑄓ʽ"%u; "𑄔ʽ"%u; "𑄜ʽ"%u; "𑄠"%u]);
   ("SinhalaConsonantMap"%u, [[0x11100; 0x11109; 0x2BD]%N; [0x11100; 0x1110E; 0x2BD]%N; [0x11100; 0x11113; 0x2BD]%N; [0x11100; 0x11118; 0x2BD]%N; [0x11100; 0x1111D; 0x2BD]%N]);
   ("NuktaMap"%u, ["ʽʽʽʽ"%u]);
   ("OmMap"%u, ["𑄃𑄮𑄀"%u]);
   ("SignMap"%u, ["'"%u; "𑅁"%u; "𑅂"%u]);
   ("Aytham"%u, [[0x11102; 0x2BC]%N]);
   ("NumeralMap"%u, ["𑄶"%u; "𑄷"%u; "𑄸"%u; "𑄹"%u; "𑄺"%u; "𑄻"%u; "𑄼"%u; "𑄽"%u;
    "𑄾"%u; "𑄿"%u])].

(** aksharamukha/ScriptMap/MainIndic/Devanagari.py:5-170 *)
Definition S_MainIndic_Devanagari : table :=
  [("VowelMap"%u, ["अ"%u; "आ"%u; "इ"%u; "ई"%u; "उ"%u; "ऊ"%u; "ऋ"%u; "ॠ"%u;
    "ऌ"%u; "ॡ"%u; "ए"%u; "ऐ"%u; "ओ"%u; "औ"%u]);
   ("SouthVowelMap"%u, ["ऎ"%u; "ऒ"%u]);
   ("ModernVowelMap"%u, ["ऍ"%u; "ऑ"%u]);
   ("SinhalaVowelMap"%u, ["एॕ"%u]);
   ("VowelSignMap"%u, [[0x93E]%N; [0x93F]%N; [0x940]%N; [0x941]%N; [0x942]%N; [0x943]%N; [0x944]%N; [0x962]%N;
    [0x963]%N; [0x947]%N; [0x948]%N; [0x94B]%N; [0x94C]%N]);
   ("SouthVowelSignMap"%u, [[0x946]%N; [0x94A]%N]);
   ("ModernVowelSignMap"%u, [[0x945]%N; [0x949]%N]);
   ("SinhalaVowelSignMap"%u, [[0x955]%N]);
   ("AyogavahaMap"%u, [[0x901]%N; [0x902]%N; [0x903]%N]);
   ("ViramaMap"%u, [[0x94D]%N]);
   ("ConsonantMap"%u, ["क"%u; "ख"%u; "ग"%u; "घ"%u; "ङ"%u; "च"%u; "छ"%u; "ज"%u;
    "झ"%u; "ञ"%u; "ट"%u; "ठ"%u; "ड"%u; "ढ"%u; "ण"%u; "त"%u;
    "थ"%u; "द"%u; "ध"%u; "न"%u; "प"%u; "फ"%u; "ब"%u; "भ"%u;
    "म"%u; "य"%u; "र"%u; "ल"%u; "व"%u; "श"%u; "ष"%u; "स"%u;
    "ह"%u]);
   ("SouthConsonantMap"%u, ["ळ"%u; "ऴ"%u; "ऱ"%u; "ऩ"%u]);
   ("NuktaConsonantMap"%u, ["क़"%u; "ख़"%u; "ग़"%u; "ज़"%u; "ड़"%u; "ढ़"%u; "फ़"%u; "य़"%u]);
   ("SinhalaConsonantMap"%u, [[0x901; 0x2C6; 0x917]%N; [0x901; 0x2C6; 0x91C]%N; [0x901; 0x2C6; 0x921]%N; [0x901; 0x2C6; 0x926]%N; [0x901; 0x2C6; 0x92C]%N]);
   ("NuktaMap"%u, [[0x93C]%N]);
   ("OmMap"%u, ["ॐ"%u]);
   ("SignMap"%u, ["ऽ"%u; "।"%u; "॥"%u]);
   ("Aytham"%u, [[0x903; 0x2BC]%N]);
   ("NumeralMap"%u, ["०"%u; "१"%u; "२"%u; "३"%u; "४"%u; "५"%u; "६"%u; "७"%u;
    "८"%u; "९"%u])].

(** aksharamukha/ScriptMap/MainIndic/Dogra.py:5-170 *)
Definition S_MainIndic_Dogra : table :=
  [("VowelMap"%u, ["𑠀"%u; "𑠁"%u; "𑠂"%u; "𑠃"%u; "𑠄"%u; "𑠅"%u; "𑠤𑠭ʽ"%u; "𑠤𑠮ʽ"%u;
    "𑠥𑠭ʽ"%u; "𑠥𑠮ʽ"%u; "𑠆"%u; "𑠇"%u; "𑠈"%u; "𑠉"%u]);
   ("SouthVowelMap"%u, ["𑠆ʽ"%u; "𑠈ʽ"%u]);
   ("ModernVowelMap"%u, ["𑠆ʽ"%u; "𑠁ʽ"%u]);
   ("SinhalaVowelMap"%u, ["𑠆ʽ"%u]);
   ("VowelSignMap"%u, [[0x1182C]%N; [0x1182D]%N; [0x1182E]%N; [0x1182F]%N; [0x11830]%N; [0x11831]%N; [0x11832]%N; [0x11839; 0x11825; 0x1182D; 0x2BD]%N;
    [0x11839; 0x11825; 0x1182E; 0x2BD]%N; [0x11833]%N; [0x11834]%N; [0x11835]%N; [0x11836]%N]);
   ("SouthVowelSignMap"%u, [[0x11833; 0x2BD]%N; [0x11835; 0x2BD]%N]);
   ("ModernVowelSignMap"%u, [[0x11833; 0x2BD]%N; [0x1182C; 0x2BD]%N]);
   ("SinhalaVowelSignMap"%u, [[0x11833; 0x2BD]%N]);
   ("AyogavahaMap"%u, [[0x11837; 0x2BD]%N; [0x11837]%N; [0x11838]%N]);
   ("ViramaMap"%u, [[0x11839]%N]);
   ("ConsonantMap"%u, ["𑠊"%u; "𑠋"%u; "𑠌"%u; "𑠍"%u; "𑠎"%u; "𑠏"%u; "𑠐"%u; "𑠑"%u;
    "𑠒"%u; "𑠓"%u; "𑠔"%u; "𑠕"%u; "𑠖"%u; "𑠗"%u; "𑠘"%u; "𑠙"%u;
    "𑠚"%u; "𑠛"%u; "𑠜"%u; "𑠝"%u; "𑠞"%u; "𑠟"%u; "𑠠"%u; "𑠡"%u;
    "𑠢"%u; "𑠣"%u; "𑠤"%u; "𑠥"%u; "𑠦"%u; "𑠧"%u; "𑠨"%u; "𑠩"%u;
    "𑠪"%u]);
   ("SouthConsonantMap"%u, ["𑠥𑠺"%u; "𑠨𑠺"%u; "𑠤𑠺"%u; "𑠝𑠺"%u]);
   ("NuktaConsonantMap"%u, ["𑠊𑠺"%u; "𑠋𑠺"%u; "𑠌𑠺"%u; "𑠑𑠺"%u; "𑠫"%u; "𑠗𑠺"%u; "𑠟𑠺"%u; "𑠣𑠺"%u]);
   ("SinhalaConsonantMap"%u, [[0x11837; 0x1180C; 0x2BD]%N; [0x11837; 0x11811; 0x2BD]%N; [0x11837; 0x11816; 0x2BD]%N; [0x11837; 0x1181B; 0x2BD]%N; [0x11837; 0x11820; 0x2BD]%N]);
   ("NuktaMap"%u, [[0x1183A]%N]);
   ("OmMap"%u, ["𑠈𑠷"%u]);
   ("SignMap"%u, ["ऽ"%u; "।"%u; "॥"%u]);
   ("Aytham"%u, [[0x11838; 0x2BD]%N]);
   ("NumeralMap"%u, ["०"%u; "१"%u; "२"%u; "३"%u; "४"%u; "५"%u; "६"%u; "७"%u;
    "८"%u; "९"%u])].

(** aksharamukha/ScriptMap/MainIndic/Grantha.py:5-170 *)
Definition S_MainIndic_Grantha : table :=
  [("VowelMap"%u, ["𑌅"%u; "𑌆"%u; "𑌇"%u; "𑌈"%u; "𑌉"%u; "𑌊"%u; "𑌋"%u; "𑍠"%u;
    "𑌌"%u; "𑍡"%u; "𑌏"%u; "𑌐"%u; "𑌓"%u; "𑌔"%u]);
   ("SouthVowelMap"%u, ["𑌏𑌀"%u; "𑌓𑌀"%u]);
   ("ModernVowelMap"%u, ["𑌏ʽ"%u; "𑌆ʽ"%u]);
   ("SinhalaVowelMap"%u, ["𑌏ʽ"%u]);
   ("VowelSignMap"%u, [[0x1133E]%N; [0x1133F]%N; [0x11340]%N; [0x11341]%N; [0x11342]%N; [0x11343]%N; [0x11344]%N; [0x11362]%N;
    [0x11363]%N; [0x11347]%N; [0x11348]%N; [0x1134B]%N; [0x11357]%N]);
   ("SouthVowelSignMap"%u, [[0x11347; 0x11300]%N; [0x1134B; 0x11300]%N]);
   ("ModernVowelSignMap"%u, [[0x11347; 0x2BD]%N; [0x1133E; 0x2BD]%N]);
   ("SinhalaVowelSignMap"%u, [[0x11347; 0x2BD]%N]);
   ("AyogavahaMap"%u, [[0x11301]%N; [0x11302]%N; [0x11303]%N]);
   ("ViramaMap"%u, [[0x1134D]%N]);
   ("ConsonantMap"%u, ["𑌕"%u; "𑌖"%u; "𑌗"%u; "𑌘"%u; "𑌙"%u; "𑌚"%u; "𑌛"%u; "𑌜"%u;
    "𑌝"%u; "𑌞"%u; "𑌟"%u; "𑌠"%u; "𑌡"%u; "𑌢"%u; "𑌣"%u; "𑌤"%u;
    "𑌥"%u; "𑌦"%u; "𑌧"%u; "𑌨"%u; "𑌪"%u; "𑌫"%u; "𑌬"%u; "𑌭"%u;
    "𑌮"%u; "𑌯"%u; "𑌰"%u; "𑌲"%u; "𑌵"%u; "𑌶"%u; "𑌷"%u; "𑌸"%u;
    "𑌹"%u]);
   ("SouthConsonantMap"%u, ["𑌳"%u; "𑌳𑌼"%u; "𑌰𑌼"%u; "𑌨𑌼"%u]);
   ("NuktaConsonantMap"%u, ["𑌕𑌼"%u; "𑌖𑌼"%u; "𑌗𑌼"%u; "𑌜𑌼"%u; "𑌡𑌼"%u; "𑌢𑌼"%u; "𑌫𑌼"%u; "𑌯𑌼"%u]);
   ("SinhalaConsonantMap"%u, [[0x11301; 0x2BD; 0x11317]%N; [0x11301; 0x2BD; 0x1131C]%N; [0x11301; 0x2BD; 0x11321]%N; [0x11301; 0x2BD; 0x11326]%N; [0x11301; 0x2BD; 0x1132C]%N]);
   ("NuktaMap"%u, [[0x1133C]%N]);
   ("OmMap"%u, ["𑍐"%u]);
   ("SignMap"%u, ["𑌽"%u; "।"%u; "॥"%u]);
   ("Aytham"%u, [[0x11303; 0x2BD]%N]);
   ("NumeralMap"%u, ["௦"%u; "௧"%u; "௨"%u; "௩"%u; "௪"%u; "௫"%u; "௬"%u; "௭"%u;
    "௮"%u; "௯"%u])].

(** aksharamukha/ScriptMap/MainIndic/GranthaGrantamil.py:5-170 *)
Definition S_MainIndic_GranthaGrantamil : table :=
  [("VowelMap"%u, ["অ"%u; "আ"%u; "ই"%u; "ঈ"%u; "উ"%u; "ঊ"%u; "ঋ"%u; "ৠ"%u;
    "ঌ"%u; "ৡ"%u; "এ"%u; "ঐ"%u; "ও"%u; "ঔ"%u]);
   ("SouthVowelMap"%u, [[0x98F; 0xE014]%N; [0x993; 0xE014]%N]);
   ("ModernVowelMap"%u, ["এʼ"%u; "আʼ"%u]);
   ("SinhalaVowelMap"%u, ["এˇ"%u]);
   ("VowelSignMap"%u, [[0x9BE]%N; [0x9BF]%N; [0x9C0]%N; [0x9C1]%N; [0x9C2]%N; [0x9C3]%N; [0x9C4]%N; [0x9E2]%N;
    [0x9E3]%N; [0x9C7]%N; [0x9C8]%N; [0x9CB]%N; [0x9CC]%N]);
   ("SouthVowelSignMap"%u, [[0x9C7; 0xE014]%N; [0x9CB; 0xE014]%N]);
   ("ModernVowelSignMap"%u, [[0x9C7; 0x2BC]%N; [0x9BE; 0x2BC]%N]);
   ("SinhalaVowelSignMap"%u, [[0x9C7; 0x2C7]%N]);
   ("AyogavahaMap"%u, [[0x981]%N; [0x982]%N; [0x983]%N]);
   ("ViramaMap"%u, [[0x9CD]%N]);
   ("ConsonantMap"%u, ["ক"%u; "খ"%u; "গ"%u; "ঘ"%u; "ঙ"%u; "চ"%u; "ছ"%u; "জ"%u;
    "ঝ"%u; "ঞ"%u; "ট"%u; "ঠ"%u; "ড"%u; "ঢ"%u; "ণ"%u; "ত"%u;
    "থ"%u; "দ"%u; "ধ"%u; "ন"%u; "প"%u; "ফ"%u; "ব"%u; "ভ"%u;
    "ম"%u; "য"%u; "র"%u; "ল"%u; "ৱ"%u; "শ"%u; "ষ"%u; "স"%u;
    "হ"%u]);
   ("SouthConsonantMap"%u, ["ৰ"%u; "ৰ়"%u; "র়"%u; "ন়"%u]);
   ("NuktaConsonantMap"%u, ["ক়"%u; "খ়"%u; "গ়"%u; "জ়"%u; "ড়"%u; "ঢ়"%u; "ফ়"%u; "য়"%u]);
   ("SinhalaConsonantMap"%u, [[0x981; 0x2C6; 0x997]%N; [0x981; 0x2C6; 0x99C]%N; [0x981; 0x2C6; 0x9A1]%N; [0x981; 0x2C6; 0x9A6]%N; [0x981; 0x2C6; 0x9AC]%N]);
   ("NuktaMap"%u, [[0x9BC]%N]);
   ("OmMap"%u, ["ওং"%u]);
   ("SignMap"%u, ["ঽ"%u; "।"%u; "॥"%u]);
   ("Aytham"%u, [[0x983; 0x2BC]%N]);
   ("NumeralMap"%u, ["০"%u; "১"%u; "২"%u; "৩"%u; "৪"%u; "৫"%u; "৬"%u; "৭"%u;
    "৮"%u; "৯"%u])].

(** aksharamukha/ScriptMap/MainIndic/GranthaPandya.py:5-171 *)
Definition S_MainIndic_GranthaPandya : table :=
  [("VowelMap"%u, ["അ"%u; "ആ"%u; "ഇ"%u; "ഈ"%u; "ഉ"%u; "ഊ"%u; "ഋ"%u; "ൠ"%u;
    "ഌ"%u; "ൡ"%u; "ഏ"%u; "ഐ"%u; "ഓ"%u; "ഔ"%u]);
   ("SouthVowelMap"%u, ["ഏʽ"%u; "ഓʽ"%u]);
   ("ModernVowelMap"%u, ["ഏʽ"%u; "ആʽ"%u]);
   ("SinhalaVowelMap"%u, ["ഏʽ"%u]);
   ("VowelSignMap"%u, [[0xD3E]%N; [0xD3F]%N; [0xD40]%N; [0xD41]%N; [0xD42]%N; [0xD43]%N; [0xD44]%N; [0xD62]%N;
    [0xD63]%N; [0xD47]%N; [0xD48]%N; [0xD4B]%N; [0xD57]%N]);
   ("SouthVowelSignMap"%u, [[0xD47; 0x2BD]%N; [0xD4B; 0x2BD]%N]);
   ("ModernVowelSignMap"%u, [[0xD47; 0x2BD]%N; [0xD3E; 0x2BD]%N]);
   ("SinhalaVowelSignMap"%u, [[0xD47; 0x2BD]%N]);
   ("AyogavahaMap"%u, [[0xD02; 0x2BD]%N; [0xD02]%N; [0xD03]%N]);
   ("ViramaMap"%u, [[0xD4D]%N]);
   ("ConsonantMap"%u, ["ക"%u; "ഖ"%u; "ഗ"%u; "ഘ"%u; "ങ"%u; "ച"%u; "ഛ"%u; "ജ"%u;
    "ഝ"%u; "ഞ"%u; "ട"%u; "ഠ"%u; "ഡ"%u; "ഢ"%u; "ണ"%u; "ത"%u;
    "ഥ"%u; "ദ"%u; "ധ"%u; "ന"%u; "പ"%u; "ഫ"%u; "ബ"%u; "ഭ"%u;
    "മ"%u; "യ"%u; "ര"%u; "ല"%u; "വ"%u; "ശ"%u; "ഷ"%u; "സ"%u;
    "ഹ"%u]);
   ("SouthConsonantMap"%u, ["ള"%u; "ളʽ"%u; "രʽ"%u; "നʽ"%u]);
   ("NuktaConsonantMap"%u, ["കʽ"%u; "ഖʽ"%u; "ഗʽ"%u; "ജʽ"%u; "ഡʽ"%u; "ഢʽ"%u; "ഫʽ"%u; "യʽ"%u]);
   ("SinhalaConsonantMap"%u, [[0xD02; 0x2BD; 0xD17]%N; [0xD02; 0x2BD; 0xD1C]%N; [0xD02; 0x2BD; 0xD21]%N; [0xD02; 0x2BD; 0xD26]%N; [0xD02; 0x2BD; 0xD2C]%N]);
   ("NuktaMap"%u, ["ʽʽʽʽ"%u]);
   ("OmMap"%u, ["ഓം"%u]);
   ("SignMap"%u, ["ഽ"%u; "।"%u; "॥"%u]);
   ("Aytham"%u, [[0xD03; 0x2BD]%N]);
   ("NumeralMap"%u, ["0"%u; "1"%u; "2"%u; "3"%u; "4"%u; "5"%u; "6"%u; "7"%u;
    "8"%u; "9"%u])].

(** aksharamukha/ScriptMap/MainIndic/Gujarati.py:5-171 *)
Definition S_MainIndic_Gujarati : table :=
  [("VowelMap"%u, ["અ"%u; "આ"%u; "ઇ"%u; "ઈ"%u; "ઉ"%u; "ઊ"%u; "ઋ"%u; "ૠ"%u;
    "ઌ"%u; "ૡ"%u; "એ"%u; "ઐ"%u; "ઓ"%u; "ઔ"%u]);
   ("SouthVowelMap"%u, ["એ˘"%u; "ઓ˘"%u]);
   ("ModernVowelMap"%u, ["ઍ"%u; "ઑ"%u]);
   ("SinhalaVowelMap"%u, ["ઍˇ"%u]);
   ("VowelSignMap"%u, [[0xABE]%N; [0xABF]%N; [0xAC0]%N; [0xAC1]%N; [0xAC2]%N; [0xAC3]%N; [0xAC4]%N; [0xAE2]%N;
    [0xAE3]%N; [0xAC7]%N; [0xAC8]%N; [0xACB]%N; [0xACC]%N]);
   ("SouthVowelSignMap"%u, [[0xAC7; 0x2D8]%N; [0xACB; 0x2D8]%N]);
   ("ModernVowelSignMap"%u, [[0xAC5]%N; [0xAC9]%N]);
   ("SinhalaVowelSignMap"%u, [[0xAC5; 0x2C7]%N]);
   ("AyogavahaMap"%u, [[0xA81]%N; [0xA82]%N; [0xA83]%N]);
   ("ViramaMap"%u, [[0xACD]%N]);
   ("ConsonantMap"%u, ["ક"%u; "ખ"%u; "ગ"%u; "ઘ"%u; "ઙ"%u; "ચ"%u; "છ"%u; "જ"%u;
    "ઝ"%u; "ઞ"%u; "ટ"%u; "ઠ"%u; "ડ"%u; "ઢ"%u; "ણ"%u; "ત"%u;
    "થ"%u; "દ"%u; "ધ"%u; "ન"%u; "પ"%u; "ફ"%u; "બ"%u; "ભ"%u;
    "મ"%u; "ય"%u; "ર"%u; "લ"%u; "વ"%u; "શ"%u; "ષ"%u; "સ"%u;
    "હ"%u]);
   ("SouthConsonantMap"%u, ["ળ"%u; "ળ઼"%u; "ર઼"%u; "ન઼"%u]);
   ("NuktaConsonantMap"%u, ["ક઼"%u; "ખ઼"%u; "ગ઼"%u; "જ઼"%u; "ડ઼"%u; "ઢ઼"%u; "ફ઼"%u; "ય઼"%u]);
   ("SinhalaConsonantMap"%u, [[0xA81; 0x2C6; 0xA97]%N; [0xA81; 0x2C6; 0xA9C]%N; [0xA81; 0x2C6; 0xAA1]%N; [0xA81; 0x2C6; 0xAA6]%N; [0xA81; 0x2C6; 0xAAC]%N]);
   ("NuktaMap"%u, [[0xABC]%N]);
   ("OmMap"%u, ["ૐ"%u]);
   ("SignMap"%u, ["ઽ"%u; "।"%u; "॥"%u]);
   ("Aytham"%u, [[0xA83; 0x2BC]%N]);
   ("NumeralMap"%u, ["૦"%u; "૧"%u; "૨"%u; "૩"%u; "૪"%u; "૫"%u; "૬"%u; "૭"%u;
    "૮"%u; "૯"%u])].

(** aksharamukha/ScriptMap/MainIndic/GunjalaGondi.py:5-170 *)
Definition S_MainIndic_GunjalaGondi : table :=
  [("VowelMap"%u, ["𑵠"%u; "𑵡"%u; "𑵢"%u; "𑵣"%u; "𑵤"%u; "𑵥"%u; "𑶈𑶍ʽ"%u; "𑶈𑶎ʽ"%u;
    "𑵵𑶍ʽ"%u; "𑵵𑶎ʽ"%u; "𑵧"%u; "𑵨"%u; "𑵪"%u; "𑵫"%u]);
   ("SouthVowelMap"%u, ["𑵧ʽ"%u; "𑵪ʽ"%u]);
   ("ModernVowelMap"%u, ["𑵧ʽ"%u; "𑵡ʽ"%u]);
   ("SinhalaVowelMap"%u, ["𑵧ʽ"%u]);
   ("VowelSignMap"%u, [[0x11D8A]%N; [0x11D8B]%N; [0x11D8C]%N; [0x11D8D]%N; [0x11D8E]%N; [0x11D97; 0x11D88; 0x11D8D; 0x2BD]%N; [0x11D97; 0x11D88; 0x11D8E; 0x2BD]%N; [0x11D97; 0x11D75; 0x11D8D; 0x2BD]%N;
    [0x11D97; 0x11D75; 0x11D8E; 0x2BD]%N; [0x11D90]%N; [0x11D91]%N; [0x11D93]%N; [0x11D94]%N]);
   ("SouthVowelSignMap"%u, [[0x11D90; 0x2BD]%N; [0x11D93; 0x2BD]%N]);
   ("ModernVowelSignMap"%u, [[0x11D90; 0x2BD]%N; [0x11D8A; 0x2BD]%N]);
   ("SinhalaVowelSignMap"%u, [[0x11D90; 0x2BD]%N]);
   ("AyogavahaMap"%u, [[0x11D95; 0x2BD]%N; [0x11D95]%N; [0x11D96]%N]);
   ("ViramaMap"%u, [[0x11D97]%N]);
   ("ConsonantMap"%u, ["𑵱"%u; "𑵲"%u; "𑵶"%u; "𑵷"%u; "𑶄"%u; "𑵻"%u; "𑵼"%u; "𑶀"%u;
    "𑶁"%u; "𑵺ʾ"%u; "𑵽"%u; "𑵾"%u; "𑶂"%u; "𑶃"%u; "𑵺ʿ"%u; "𑵳"%u;
    "𑵴"%u; "𑵸"%u; "𑵹"%u; "𑵺"%u; "𑶅"%u; "𑶆"%u; "𑵮"%u; "𑵯"%u;
    "𑵰"%u; "𑵬"%u; "𑶈"%u; "𑵵"%u; "𑵭"%u; "𑶉ʽ"%u; "𑶉ʽ"%u; "𑶉"%u;
    "𑶇"%u]);
   ("SouthConsonantMap"%u, ["𑵿"%u; "𑵿ʽ"%u; "𑶈ʽ"%u; "𑵺ʽ"%u]);
   ("NuktaConsonantMap"%u, ["𑵱ʽ"%u; "𑵲ʽ"%u; "𑵶ʽ"%u; "𑶀ʽ"%u; "𑶂ʽ"%u; "𑶃ʽ"%u; "𑶆ʽ"%u; "𑵬ʽ"%u]);
   ("SinhalaConsonantMap"%u, [[0x11D95; 0x11D76; 0x2BD]%N; [0x11D95; 0x11D80; 0x2BD]%N; [0x11D95; 0x11D82; 0x2BD]%N; [0x11D95; 0x11D78; 0x2BD]%N; [0x11D95; 0x11D6E; 0x2BD]%N]);
   ("NuktaMap"%u, ["ʽʽ"%u]);
   ("OmMap"%u, ["𑶘"%u]);
   ("SignMap"%u, ["ʽʽʽ"%u; "."%u; ".."%u]);
   ("Aytham"%u, [[0x11D96; 0x2BD]%N]);
   ("NumeralMap"%u, ["𑶠"%u; "𑶡"%u; "𑶢"%u; "𑶣"%u; "𑶤"%u; "𑶥"%u; "𑶦"%u; "𑶧"%u;
    "𑶨"%u; "𑶩"%u])].

(** aksharamukha/ScriptMap/MainIndic/Gurmukhi.py:5-171 *)
Definition S_MainIndic_Gurmukhi : table :=
  [("VowelMap"%u, ["ਅ"%u; "ਆ"%u; "ਇ"%u; "ਈ"%u; "ਉ"%u; "ਊ"%u; "ਰੁʼ"%u; "ਰੂʼ"%u;
    "ਲੁʼ"%u; "ਲੂʼ"%u; "ਏ"%u; "ਐ"%u; "ਓ"%u; "ਔ"%u]);
   ("SouthVowelMap"%u, ["ਏ˘"%u; "ਓ˘"%u]);
   ("ModernVowelMap"%u, ["ਏʼ"%u; "ਆʼ"%u]);
   ("SinhalaVowelMap"%u, ["ਏˇ"%u]);
   ("VowelSignMap"%u, [[0xA3E]%N; [0xA3F]%N; [0xA40]%N; [0xA41]%N; [0xA42]%N; [0xA4D; 0xA30; 0xA41; 0x2BC]%N; [0xA4D; 0xA30; 0xA42; 0x2BC]%N; [0xA4D; 0xA32; 0xA41; 0x2BC]%N;
    [0xA4D; 0xA32; 0xA42; 0x2BC]%N; [0xA47]%N; [0xA48]%N; [0xA4B]%N; [0xA4C]%N]);
   ("SouthVowelSignMap"%u, [[0xA47; 0x2D8]%N; [0xA4B; 0x2D8]%N]);
   ("ModernVowelSignMap"%u, [[0xA47; 0x2BC]%N; [0xA3E; 0x2BC]%N]);
   ("SinhalaVowelSignMap"%u, [[0xA47; 0x2C7]%N]);
   ("AyogavahaMap"%u, [[0xA01]%N; [0xA02]%N; [0xA03]%N]);
   ("ViramaMap"%u, [[0xA4D]%N]);
   ("ConsonantMap"%u, ["ਕ"%u; "ਖ"%u; "ਗ"%u; "ਘ"%u; "ਙ"%u; "ਚ"%u; "ਛ"%u; "ਜ"%u;
    "ਝ"%u; "ਞ"%u; "ਟ"%u; "ਠ"%u; "ਡ"%u; "ਢ"%u; "ਣ"%u; "ਤ"%u;
    "ਥ"%u; "ਦ"%u; "ਧ"%u; "ਨ"%u; "ਪ"%u; "ਫ"%u; "ਬ"%u; "ਭ"%u;
    "ਮ"%u; "ਯ"%u; "ਰ"%u; "ਲ"%u; "ਵ"%u; "ਸ਼"%u; "ਸ਼਼"%u; "ਸ"%u;
    "ਹ"%u]);
   ("SouthConsonantMap"%u, ["ਲ਼"%u; "ਲ਼਼"%u; "ਰ਼"%u; "ਨ਼"%u]);
   ("NuktaConsonantMap"%u, ["ਕ਼"%u; "ਖ਼"%u; "ਗ਼"%u; "ਜ਼"%u; "ੜ"%u; "ੜ੍ਹ"%u; "ਫ਼"%u; "ਯ਼"%u]);
   ("SinhalaConsonantMap"%u, [[0xA01; 0x2C6; 0xA17]%N; [0xA01; 0x2C6; 0xA1C]%N; [0xA01; 0x2C6; 0xA21]%N; [0xA01; 0x2C6; 0xA26]%N; [0xA01; 0x2C6; 0xA2C]%N]);
   ("NuktaMap"%u, [[0xA3C]%N]);
   ("OmMap"%u, ["ੴ"%u]);
   ("SignMap"%u, ["(ਅ)"%u; "।"%u; "॥"%u]);
   ("Aytham"%u, [[0xA03; 0x2BC]%N]);
   ("NumeralMap"%u, ["੦"%u; "੧"%u; "੨"%u; "੩"%u; "੪"%u; "੫"%u; "੬"%u; "੭"%u;
    "੮"%u; "੯"%u])].

(** aksharamukha/ScriptMap/MainIndic/GurmukhiLoC.py:5-171 *)
Definition S_MainIndic_GurmukhiLoC : table :=
  [("VowelMap"%u, ["ਅ"%u; "ਆ"%u; "ਇ"%u; "ਈ"%u; "ਉ"%u; "ਊ"%u; "ਰੁʼ"%u; "ਰੂʼ"%u;
    "ਲੁʼ"%u; "ਲੂʼ"%u; "ਏ"%u; "ਐ"%u; "ਓ"%u; "ਔ"%u]);
   ("SouthVowelMap"%u, ["ਏ˘"%u; "ਓ˘"%u]);
   ("ModernVowelMap"%u, ["ਏʼ"%u; "ਆʼ"%u]);
   ("SinhalaVowelMap"%u, ["ਏˇ"%u]);
   ("VowelSignMap"%u, [[0xA3E]%N; [0xA3F]%N; [0xA40]%N; [0xA41]%N; [0xA42]%N; [0xA4D; 0xA30; 0xA41; 0x2BC]%N; [0xA4D; 0xA30; 0xA42; 0x2BC]%N; [0xA4D; 0xA32; 0xA41; 0x2BC]%N;
    [0xA4D; 0xA32; 0xA42; 0x2BC]%N; [0xA47]%N; [0xA48]%N; [0xA4B]%N; [0xA4C]%N]);
   ("SouthVowelSignMap"%u, [[0xA47; 0x2D8]%N; [0xA4B; 0x2D8]%N]);
   ("ModernVowelSignMap"%u, [[0xA47; 0x2BC]%N; [0xA3E; 0x2BC]%N]);
   ("SinhalaVowelSignMap"%u, [[0xA47; 0x2C7]%N]);
   ("AyogavahaMap"%u, [[0xA70]%N; [0xA02]%N; [0xA03]%N]);
   ("ViramaMap"%u, [[0xA4D]%N]);
   ("ConsonantMap"%u, ["ਕ"%u; "ਖ"%u; "ਗ"%u; "ਘ"%u; "ਙ"%u; "ਚ"%u; "ਛ"%u; "ਜ"%u;
    "ਝ"%u; "ਞ"%u; "ਟ"%u; "ਠ"%u; "ਡ"%u; "ਢ"%u; "ਣ"%u; "ਤ"%u;
    "ਥ"%u; "ਦ"%u; "ਧ"%u; "ਨ"%u; "ਪ"%u; "ਫ"%u; "ਬ"%u; "ਭ"%u;
    "ਮ"%u; "ਯ"%u; "ਰ"%u; "ਲ"%u; "ਵ"%u; "ਸ਼"%u; "ਸ਼਼"%u; "ਸ"%u;
    "ਹ"%u]);
   ("SouthConsonantMap"%u, ["ਲੵ"%u; "ਲ਼਼"%u; "ਰ਼"%u; "ਨ਼"%u]);
   ("NuktaConsonantMap"%u, ["ਕ਼"%u; "ਖ਼"%u; "ਗ਼"%u; "ਜ਼"%u; "ੜ"%u; "ੜ੍ਹ"%u; "ਫ਼"%u; "ਯ਼"%u]);
   ("SinhalaConsonantMap"%u, [[0xA01; 0x2C6; 0xA17]%N; [0xA01; 0x2C6; 0xA1C]%N; [0xA01; 0x2C6; 0xA21]%N; [0xA01; 0x2C6; 0xA26]%N; [0xA01; 0x2C6; 0xA2C]%N]);
   ("NuktaMap"%u, [[0xA3C]%N]);
   ("OmMap"%u, ["ੴ"%u]);
   ("SignMap"%u, ["(ਅ)"%u; "।"%u; "॥"%u]);
   ("Aytham"%u, [[0xA03; 0x2BC]%N]);
   ("NumeralMap"%u, ["੦"%u; "੧"%u; "੨"%u; "੩"%u; "੪"%u; "੫"%u; "੬"%u; "੭"%u;
    "੮"%u; "੯"%u])].

(** aksharamukha/ScriptMap/MainIndic/Kaithi.py:5-170 *)
Definition S_MainIndic_Kaithi : table :=
  [("VowelMap"%u, ["𑂃"%u; "𑂄"%u; "𑂅"%u; "𑂆"%u; "𑂇"%u; "𑂈"%u; "𑂩𑂱ʽ"%u; "𑂩𑂲ʽ"%u;
    "𑂪𑂱ʽ"%u; "𑂪𑂲ʽ"%u; "𑂉"%u; "𑂊"%u; "𑂋"%u; "𑂌"%u]);
   ("SouthVowelMap"%u, ["𑂉ʽ"%u; "𑂋ʽ"%u]);
   ("ModernVowelMap"%u, ["𑂉ʽ"%u; "𑂄ʽ"%u]);
   ("SinhalaVowelMap"%u, ["𑂉ʽ"%u]);
   ("VowelSignMap"%u, [[0x110B0]%N; [0x110B1]%N; [0x110B2]%N; [0x110B3]%N; [0x110B4]%N; [0x110C2]%N; [0x110B9; 0x110A9; 0x110B2; 0x2BD]%N; [0x110B9; 0x110AA; 0x110B1; 0x2BD]%N;
    [0x110B9; 0x110AA; 0x110B2; 0x2BD]%N; [0x110B5]%N; [0x110B6]%N; [0x110B7]%N; [0x110B8]%N]);
   ("SouthVowelSignMap"%u, [[0x110B5; 0x2BD]%N; [0x110B7; 0x2BD]%N]);
   ("ModernVowelSignMap"%u, [[0x110B5; 0x2BD]%N; [0x110B0; 0x2BD]%N]);
   ("SinhalaVowelSignMap"%u, [[0x110B5; 0x2BD]%N]);
   ("AyogavahaMap"%u, [[0x11080]%N; [0x11081]%N; [0x11082]%N]);
   ("ViramaMap"%u, [[0x110B9]%N]);
   ("ConsonantMap"%u, ["𑂍"%u; "𑂎"%u; "𑂏"%u; "𑂐"%u; "𑂑"%u; "𑂒"%u; "𑂓"%u; "𑂔"%u;
    "𑂕"%u; "𑂖"%u; "𑂗"%u; "𑂘"%u; "𑂙"%u; "𑂛"%u; "𑂝"%u; "𑂞"%u;
    "𑂟"%u; "𑂠"%u; "𑂡"%u; "𑂢"%u; "𑂣"%u; "𑂤"%u; "𑂥"%u; "𑂦"%u;
    "𑂧"%u; "𑂨"%u; "𑂩"%u; "𑂪"%u; "𑂫"%u; "𑂬"%u; "𑂭"%u; "𑂮"%u;
    "𑂯"%u]);
   ("SouthConsonantMap"%u, ["𑂪𑂺"%u; "𑂭𑂺"%u; "𑂩𑂺"%u; "𑂢𑂺"%u]);
   ("NuktaConsonantMap"%u, ["𑂍𑂺"%u; "𑂎𑂺"%u; "𑂏𑂺"%u; "𑂔𑂺"%u; "𑂚"%u; "𑂜"%u; "𑂤𑂺"%u; "𑂨𑂺"%u]);
   ("SinhalaConsonantMap"%u, [[0x11080; 0x1108F; 0x2BD]%N; [0x11080; 0x11094; 0x2BD]%N; [0x11080; 0x11099; 0x2BD]%N; [0x11080; 0x110A0; 0x2BD]%N; [0x11080; 0x110A5; 0x2BD]%N]);
   ("NuktaMap"%u, [[0x110BA]%N]);
   ("OmMap"%u, ["𑂋𑂁"%u]);
   ("SignMap"%u, ["ऽ"%u; "𑃀"%u; "𑃁"%u]);
   ("Aytham"%u, [[0x11082; 0x2BD]%N]);
   ("NumeralMap"%u, ["०"%u; "१"%u; "२"%u; "३"%u; "४"%u; "५"%u; "६"%u; "७"%u;
    "८"%u; "९"%u])].

(** aksharamukha/ScriptMap/MainIndic/Kannada.py:5-170 *)
Definition S_MainIndic_Kannada : table :=
  [("VowelMap"%u, ["ಅ"%u; "ಆ"%u; "ಇ"%u; "ಈ"%u; "ಉ"%u; "ಊ"%u; "ಋ"%u; "ೠ"%u;
    "ಌ"%u; "ೡ"%u; "ಏ"%u; "ಐ"%u; "ಓ"%u; "ಔ"%u]);
   ("SouthVowelMap"%u, ["ಎ"%u; "ಒ"%u]);
   ("ModernVowelMap"%u, ["ಎʼ"%u; "ಆʼ"%u]);
   ("SinhalaVowelMap"%u, ["ಏˇ"%u]);
   ("VowelSignMap"%u, [[0xCBE]%N; [0xCBF]%N; [0xCC0]%N; [0xCC1]%N; [0xCC2]%N; [0xCC3]%N; [0xCC4]%N; [0xCE2]%N;
    [0xCE3]%N; [0xCC7]%N; [0xCC8]%N; [0xCCB]%N; [0xCCC]%N]);
   ("SouthVowelSignMap"%u, [[0xCC6]%N; [0xCCA]%N]);
   ("ModernVowelSignMap"%u, [[0xCC6; 0x2BC]%N; [0xCBE; 0x2BC]%N]);
   ("SinhalaVowelSignMap"%u, [[0xCC7; 0x2C7]%N]);
   ("AyogavahaMap"%u, [[0xC81]%N; [0xC82]%N; [0xC83]%N]);
   ("ViramaMap"%u, [[0xCCD]%N]);
   ("ConsonantMap"%u, ["ಕ"%u; "ಖ"%u; "ಗ"%u; "ಘ"%u; "ಙ"%u; "ಚ"%u; "ಛ"%u; "ಜ"%u;
    "ಝ"%u; "ಞ"%u; "ಟ"%u; "ಠ"%u; "ಡ"%u; "ಢ"%u; "ಣ"%u; "ತ"%u;
    "ಥ"%u; "ದ"%u; "ಧ"%u; "ನ"%u; "ಪ"%u; "ಫ"%u; "ಬ"%u; "ಭ"%u;
    "ಮ"%u; "ಯ"%u; "ರ"%u; "ಲ"%u; "ವ"%u; "ಶ"%u; "ಷ"%u; "ಸ"%u;
    "ಹ"%u]);
   ("SouthConsonantMap"%u, ["ಳ"%u; "ೞ"%u; "ಱ"%u; "ನ಼"%u]);
   ("NuktaConsonantMap"%u, ["ಕ಼"%u; "ಖ಼"%u; "ಗ಼"%u; "ಜ಼"%u; "ಡ಼"%u; "ಢ಼"%u; "ಫ಼"%u; "ಯ಼"%u]);
   ("SinhalaConsonantMap"%u, [[0xC82; 0x2C6; 0xC97]%N; [0xC82; 0x2C6; 0xC9C]%N; [0xC82; 0x2C6; 0xCA1]%N; [0xC82; 0x2C6; 0xCA6]%N; [0xC82; 0x2C6; 0xCAC]%N]);
   ("NuktaMap"%u, [[0xCBC]%N]);
   ("OmMap"%u, ["ಓಂ"%u]);
   ("SignMap"%u, ["ಽ"%u; "।"%u; "॥"%u]);
   ("Aytham"%u, [[0xC83; 0x2BC]%N]);
   ("NumeralMap"%u, ["೦"%u; "೧"%u; "೨"%u; "೩"%u; "೪"%u; "೫"%u; "೬"%u; "೭"%u;
    "೮"%u; "೯"%u])].

(** aksharamukha/ScriptMap/MainIndic/Kharoshthi.py:5-171 *)
Definition S_MainIndic_Kharoshthi : table :=
  [("VowelMap"%u, ["𐨀"%u; "𐨀𐨌"%u; "𐨀𐨁"%u; "𐨀𐨁𐨌"%u; "𐨀𐨂"%u; "𐨀𐨂𐨌"%u; "𐨀𐨃"%u; "𐨀𐨃𐨌"%u;
    "𐨫𐨂ʽ"%u; "𐨫𐨂𐨌ʽ"%u; "𐨀𐨅"%u; "𐨀𐨅𐨌"%u; "𐨀𐨆"%u; "𐨀𐨆𐨌"%u]);
   ("SouthVowelMap"%u, ["𐨀𐨅ʽ"%u; "𐨀𐨆ʽ"%u]);
   ("ModernVowelMap"%u, ["𐨀𐨅ʽ"%u; "𐨀𐨌ʽ"%u]);
   ("SinhalaVowelMap"%u, ["𐨀𐨅ʽ"%u]);
   ("VowelSignMap"%u, [[0x10A0C]%N; [0x10A01]%N; [0x10A01; 0x10A0C]%N; [0x10A02]%N; [0x10A02; 0x10A0C]%N; [0x10A03]%N; [0x10A03; 0x10A0C]%N; [0x10A3F; 0x10A2B; 0x10A02; 0x2BD]%N;
    [0x10A3F; 0x10A2B; 0x10A02; 0x10A0C; 0x2BD]%N; [0x10A05]%N; [0x10A05; 0x10A0C]%N; [0x10A06]%N; [0x10A06; 0x10A0C]%N]);
   ("SouthVowelSignMap"%u, [[0x10A05; 0x2BD]%N; [0x10A06; 0x2BD]%N]);
   ("ModernVowelSignMap"%u, [[0x10A05; 0x2BD]%N; [0x10A0C; 0x2BD]%N]);
   ("SinhalaVowelSignMap"%u, [[0x10A05; 0x2BD]%N]);
   ("AyogavahaMap"%u, [[0x10A0E; 0x2BD]%N; [0x10A0E]%N; [0x10A0F]%N]);
   ("ViramaMap"%u, [[0x10A3F]%N]);
   ("ConsonantMap"%u, ["𐨐"%u; "𐨑"%u; "𐨒"%u; "𐨓"%u; "𐨣ʽ"%u; "𐨕"%u; "𐨖"%u; "𐨗"%u;
    "𐨗ʽ"%u; "𐨙"%u; "𐨚"%u; "𐨛"%u; "𐨜"%u; "𐨝"%u; "𐨞"%u; "𐨟"%u;
    "𐨠"%u; "𐨡"%u; "𐨢"%u; "𐨣"%u; "𐨤"%u; "𐨥"%u; "𐨦"%u; "𐨧"%u;
    "𐨨"%u; "𐨩"%u; "𐨪"%u; "𐨫"%u; "𐨬"%u; "𐨭"%u; "𐨮"%u; "𐨯"%u;
    "𐨱"%u]);
   ("SouthConsonantMap"%u, ["𐨫ʽ"%u; "𐨫ʽ"%u; "𐨪ʽ"%u; "𐨣ʽ"%u]);
   ("NuktaConsonantMap"%u, ["𐨲"%u; "𐨑ʽ"%u; "𐨒ʽ"%u; "𐨰"%u; "𐨜ʽ"%u; "𐨝ʽ"%u; "𐨥ʽ"%u; "𐨩ʽ"%u]);
   ("SinhalaConsonantMap"%u, [[0x10A0E; 0x10A12; 0x2BD]%N; [0x10A0E; 0x10A17; 0x2BD]%N; [0x10A0E; 0x10A1C; 0x2BD]%N; [0x10A0E; 0x10A21; 0x2BD]%N; [0x10A0E; 0x10A26; 0x2BD]%N]);
   ("NuktaMap"%u, ["ʽʽʽʽ"%u]);
   ("OmMap"%u, ["𐨀𐨅𐨎"%u]);
   ("SignMap"%u, ["ʽʽ"%u; "𐩖"%u; "𐩗"%u]);
   ("Aytham"%u, [[0x10A0F; 0x2BD]%N]);
   ("NumeralMap"%u, ["0"%u; "1"%u; "2"%u; "3"%u; "4"%u; "5"%u; "6"%u; "7"%u;
    "8"%u; "9"%u])].

(** aksharamukha/ScriptMap/MainIndic/Khojki.py:5-171 *)
Definition S_MainIndic_Khojki : table :=
  [("VowelMap"%u, ["𑈀"%u; "𑈁"%u; [0x11240]%N; "𑈂"%u; "𑈃"%u; "𑈃ʽ"%u; "𑈦𑈭ʽ"%u; "𑈦𑈮ʽ"%u;
    "𑈧𑈭ʽ"%u; "𑈧𑈮ʽ"%u; "𑈄"%u; "𑈅"%u; "𑈆"%u; "𑈇"%u]);
   ("SouthVowelMap"%u, ["𑈄ʽ"%u; "𑈆ʽ"%u]);
   ("ModernVowelMap"%u, ["𑈄ʽ"%u; "𑈁ʽ"%u]);
   ("SinhalaVowelMap"%u, ["𑈄ʽ"%u]);
   ("VowelSignMap"%u, [[0x1122C]%N; [0x1122D]%N; [0x1122E]%N; [0x1122F]%N; [0x1122F; 0x2BD]%N; [0x11241]%N; [0x11235; 0x11226; 0x1122E; 0x2BD]%N; [0x11235; 0x11227; 0x1122D; 0x2BD]%N;
    [0x11235; 0x11227; 0x1122E; 0x2BD]%N; [0x11230]%N; [0x11231]%N; [0x11232]%N; [0x11233]%N]);
   ("SouthVowelSignMap"%u, [[0x11230; 0x2BD]%N; [0x11232; 0x2BD]%N]);
   ("ModernVowelSignMap"%u, [[0x11230; 0x2BD]%N; [0x1122C; 0x2BD]%N]);
   ("SinhalaVowelSignMap"%u, [[0x11230; 0x2BD]%N]);
   ("AyogavahaMap"%u, [[0x11234; 0x2BD]%N; [0x11234]%N; "𑈪𑈵ʽ"%u]);
   ("ViramaMap"%u, [[0x11235]%N]);
   ("ConsonantMap"%u, ["𑈈"%u; "𑈉"%u; "𑈊"%u; "𑈌"%u; "𑈍"%u; "𑈎"%u; "𑈏"%u; "𑈐"%u;
    "𑈐ʽ"%u; "𑈓"%u; "𑈔"%u; "𑈕"%u; "𑈖"%u; "𑈗"%u; "𑈘"%u; "𑈙"%u;
    "𑈚"%u; "𑈛"%u; "𑈝"%u; "𑈞"%u; "𑈟"%u; "𑈠"%u; "𑈡"%u; "𑈣"%u;
    "𑈤"%u; "𑈥"%u; "𑈦"%u; "𑈧"%u; "𑈨"%u; "𑈩𑈶"%u; "𑈩𑈶ʽ"%u; "𑈩"%u;
    "𑈪"%u]);
   ("SouthConsonantMap"%u, ["𑈫"%u; "𑈫𑈶"%u; "𑈦𑈶"%u; "𑈞𑈶"%u]);
   ("NuktaConsonantMap"%u, ["𑈈𑈶"%u; "𑈉𑈶"%u; "𑈊𑈶"%u; "𑈐𑈶"%u; "𑈖𑈶"%u; "𑈗𑈶"%u; "𑈠𑈶"%u; "𑈥𑈶"%u]);
   ("SinhalaConsonantMap"%u, [[0x11234; 0x1120A; 0x2BD]%N; [0x11234; 0x11210; 0x2BD]%N; [0x11234; 0x11216; 0x2BD]%N; [0x11234; 0x1121B; 0x2BD]%N; [0x11234; 0x11221; 0x2BD]%N]);
   ("NuktaMap"%u, [[0x11236]%N]);
   ("OmMap"%u, ["𑈆𑈴"%u]);
   ("SignMap"%u, ["ʽʽ"%u; "𑈸"%u; "𑈹"%u]);
   ("Aytham"%u, ["𑈪𑈵ʽʽ"%u]);
   ("NumeralMap"%u, ["૦"%u; "૧"%u; "૨"%u; "૩"%u; "૪"%u; "૫"%u; "૬"%u; "૭"%u;
    "૮"%u; "૯"%u])].

(** aksharamukha/ScriptMap/MainIndic/Khudawadi.py:5-171 *)
Definition S_MainIndic_Khudawadi : table :=
  [("VowelMap"%u, ["𑊰"%u; "𑊱"%u; "𑊲"%u; "𑊳"%u; "𑊴"%u; "𑊵"%u; "𑋙𑋡ʽ"%u; "𑋙𑋢ʽ"%u;
    "𑋚𑋡ʽ"%u; "𑋚𑋢ʽ"%u; "𑊶"%u; "𑊷"%u; "𑊸"%u; "𑊹"%u]);
   ("SouthVowelMap"%u, ["𑊶ʽ"%u; "𑊸ʽ"%u]);
   ("ModernVowelMap"%u, ["𑊶ʽ"%u; "𑊱ʽ"%u]);
   ("SinhalaVowelMap"%u, ["𑊶ʽ"%u]);
   ("VowelSignMap"%u, [[0x112E0]%N; [0x112E1]%N; [0x112E2]%N; [0x112E3]%N; [0x112E4]%N; [0x112EA; 0x112D9; 0x112E1; 0x2BD]%N; [0x112EA; 0x112D9; 0x112E2; 0x2BD]%N; [0x112EA; 0x112DA; 0x112E1; 0x2BD]%N;
    [0x112EA; 0x112DA; 0x112E2; 0x2BD]%N; [0x112E5]%N; [0x112E6]%N; [0x112E7]%N; [0x112E8]%N]);
   ("SouthVowelSignMap"%u, [[0x112E5; 0x2BD]%N; [0x112E7; 0x2BD]%N]);
   ("ModernVowelSignMap"%u, [[0x112E5; 0x2BD]%N; [0x112E0; 0x2BD]%N]);
   ("SinhalaVowelSignMap"%u, [[0x112E5; 0x2BD]%N]);
   ("AyogavahaMap"%u, [[0x112DF; 0x2BD]%N; [0x112DF]%N; "𑋞𑋪ʽ"%u]);
   ("ViramaMap"%u, [[0x112EA]%N]);
   ("ConsonantMap"%u, ["𑊺"%u; "𑊻"%u; "𑊼"%u; "𑊾"%u; "𑊿"%u; "𑋀"%u; "𑋁"%u; "𑋂"%u;
    "𑋄"%u; "𑋅"%u; "𑋆"%u; "𑋇"%u; "𑋈"%u; "𑋋"%u; "𑋌"%u; "𑋍"%u;
    "𑋎"%u; "𑋏"%u; "𑋐"%u; "𑋑"%u; "𑋒"%u; "𑋓"%u; "𑋔"%u; "𑋖"%u;
    "𑋗"%u; "𑋘"%u; "𑋙"%u; "𑋚"%u; "𑋛"%u; "𑋜"%u; "𑋜𑋩"%u; "𑋝"%u;
    "𑋞"%u]);
   ("SouthConsonantMap"%u, ["𑋚𑋩"%u; "𑋚𑋩ʽ"%u; "𑋙𑋩"%u; "𑋑𑋩"%u]);
   ("NuktaConsonantMap"%u, ["𑊺𑋩"%u; "𑊻𑋩"%u; "𑊼𑋩"%u; "𑋂𑋩"%u; "𑋊"%u; "𑋋𑋩"%u; "𑋓𑋩"%u; "𑋘𑋩"%u]);
   ("SinhalaConsonantMap"%u, [[0x112DF; 0x112BC; 0x2BD]%N; [0x112DF; 0x112C2; 0x2BD]%N; [0x112DF; 0x112C8; 0x2BD]%N; [0x112DF; 0x112CF; 0x2BD]%N; [0x112DF; 0x112D4; 0x2BD]%N]);
   ("NuktaMap"%u, [[0x112E9]%N]);
   ("OmMap"%u, ["𑊸𑋟"%u]);
   ("SignMap"%u, ["ऽ"%u; "।"%u; "॥"%u]);
   ("Aytham"%u, ["𑋞𑋪ʽʽ"%u]);
   ("NumeralMap"%u, ["𑋰"%u; "𑋱"%u; "𑋲"%u; "𑋳"%u; "𑋴"%u; "𑋵"%u; "𑋶"%u; "𑋷"%u;
    "𑋸"%u; "𑋹"%u])].

(** aksharamukha/ScriptMap/MainIndic/Lepcha.py:5-171 *)
Definition S_MainIndic_Lepcha : table :=
  [("VowelMap"%u, ["ᰣ"%u; "ᰣᰦ"%u; "ᰣᰧ"%u; "ᰣᰧᰶ"%u; "ᰣᰪ"%u; "ᰣᰫ"%u; "ᰛᰪʽ"%u; "ᰛᰫʽ"%u;
    "ᰜᰪʽ"%u; "ᰜᰫʽ"%u; "ᰣᰬ"%u; "ᰣᰬʽ"%u; "ᰣᰨ"%u; "ᰣᰩ"%u]);
   ("SouthVowelMap"%u, ["ᰣᰬʽ"%u; "ᰣᰨʽ"%u]);
   ("ModernVowelMap"%u, ["ᰣᰬʽ"%u; "ᰣᰦʽ"%u]);
   ("SinhalaVowelMap"%u, ["ᰣᰬʽ"%u]);
   ("VowelSignMap"%u, [[0x1C26]%N; [0x1C27]%N; [0x1C27; 0x1C36]%N; [0x1C2A]%N; [0x1C2B]%N; "ʾᰛᰪʽ"%u; "ʾᰛᰫʽ"%u; "ʾᰜᰪʽ"%u;
    "ʾᰜᰫʽ"%u; [0x1C2C]%N; [0x1C2C; 0x2BD]%N; [0x1C28]%N; [0x1C29]%N]);
   ("SouthVowelSignMap"%u, [[0x1C2C; 0x2BD]%N; [0x1C28; 0x2BD]%N]);
   ("ModernVowelSignMap"%u, [[0x1C2C; 0x2BD]%N; [0x1C26; 0x2BD]%N]);
   ("SinhalaVowelSignMap"%u, [[0x1C2C; 0x2BD]%N]);
   ("AyogavahaMap"%u, [[0x1C34; 0x2BD]%N; [0x1C34]%N; "ᰝʽ"%u]);
   ("ViramaMap"%u, ["ʾ"%u]);
   ("ConsonantMap"%u, ["ᰀ"%u; "ᰂ"%u; "ᰃ"%u; "ᰃʽ"%u; "ᰅ"%u; "ᰆ"%u; "ᰇ"%u; "ᰈ"%u;
    "ᰈʽ"%u; "ᰉ"%u; "ᱍ"%u; "ᱎ"%u; "ᱏ"%u; "ᱏʽ"%u; "ᰍʽ"%u; "ᰊ"%u;
    "ᰋ"%u; "ᰌ"%u; "ᰌʽ"%u; "ᰍ"%u; "ᰎ"%u; "ᰐ"%u; "ᰓ"%u; "ᰓʽ"%u;
    "ᰕ"%u; "ᰚ"%u; "ᰛ"%u; "ᰜ"%u; "ᰟ"%u; "ᰡ"%u; "ᰡ᰷"%u; "ᰠ"%u;
    "ᰝ"%u]);
   ("SouthConsonantMap"%u, ["ᰜ᰷"%u; "ᰜ᰷ʽ"%u; "ᰛ᰷"%u; "ᰍ᰷"%u]);
   ("NuktaConsonantMap"%u, ["ᰀ᰷"%u; "ᰂ᰷"%u; "ᰃ᰷"%u; "ᰈ᰷"%u; "ᱏ᰷"%u; "ᱏ᰷ʽ"%u; "ᰑ"%u; "ᰚ᰷"%u]);
   ("SinhalaConsonantMap"%u, [[0x1C35; 0x1C03; 0x2BD]%N; [0x1C30; 0x1C08; 0x2BD]%N; [0x1C30; 0x1C0C; 0x2BD]%N; [0x1C30; 0x1C0C; 0x2BD]%N; [0x1C2E; 0x1C13; 0x2BD]%N]);
   ("NuktaMap"%u, [[0x1C37]%N]);
   ("OmMap"%u, ["ᰣᰨᰴ"%u]);
   ("SignMap"%u, ["'"%u; "᰻"%u; "᰼"%u]);
   ("Aytham"%u, ["ᰝʽʼ"%u]);
   ("NumeralMap"%u, ["᱀"%u; "᱁"%u; "᱂"%u; "᱃"%u; "᱄"%u; "᱅"%u; "᱆"%u; "᱇"%u;
    "᱈"%u; "᱉"%u])].

(** aksharamukha/ScriptMap/MainIndic/Limbu.py:5-171 *)
Definition S_MainIndic_Limbu : table :=
  [("VowelMap"%u, ["ᤀ"%u; "ᤀᤠ"%u; "ᤀᤡ"%u; "ᤀᤡ᤺"%u; "ᤀᤢ"%u; "ᤀᤢ᤺"%u; "ᤖᤢʽ"%u; "ᤖᤢ᤺ʽ"%u;
    "ᤗᤢʽ"%u; "ᤗᤢ᤺ʽ"%u; "ᤀᤣ"%u; "ᤀᤤ"%u; "ᤀᤥ"%u; "ᤀᤦ"%u]);
   ("ModernVowelMap"%u, ["ᤀᤧʽ"%u; "ᤀᤨʽ"%u]);
   ("SouthVowelMap"%u, ["ᤀᤧ"%u; "ᤀᤨ"%u]);
   ("SinhalaVowelMap"%u, ["ᤀᤣʽ"%u]);
   ("VowelSignMap"%u, [[0x1920]%N; [0x1921]%N; [0x1921; 0x193A]%N; [0x1922]%N; [0x1922; 0x193A]%N; [0x193B; 0x1916; 0x1922; 0x2BD]%N; [0x193B; 0x1916; 0x1922; 0x193A; 0x2BD]%N; [0x193B; 0x1917; 0x1922; 0x2BD]%N;
    [0x193B; 0x1917; 0x1922; 0x193A; 0x2BD]%N; [0x1923]%N; [0x1924]%N; [0x1925]%N; [0x1926]%N]);
   ("ModernVowelSignMap"%u, [[0x1927; 0x2BD]%N; [0x1928; 0x2BD]%N]);
   ("SouthVowelSignMap"%u, [[0x1927]%N; [0x1928]%N]);
   ("SinhalaVowelSignMap"%u, [[0x1923; 0x2BD]%N]);
   ("AyogavahaMap"%u, [[0x1932; 0x2BD]%N; [0x1932]%N; "ᤜ᤻ʽ"%u]);
   ("ViramaMap"%u, [[0x193B]%N]);
   ("ConsonantMap"%u, ["ᤁ"%u; "ᤂ"%u; "ᤃ"%u; "ᤄ"%u; "ᤅ"%u; "ᤆ"%u; "ᤇ"%u; "ᤈ"%u;
    "ᤉ"%u; "ᤊ"%u; "ᤋʽ"%u; "ᤌʽ"%u; "ᤍʽ"%u; "ᤎʽ"%u; "ᤏʽ"%u; "ᤋ"%u;
    "ᤌ"%u; "ᤍ"%u; "ᤎ"%u; "ᤏ"%u; "ᤐ"%u; "ᤑ"%u; "ᤒ"%u; "ᤓ"%u;
    "ᤔ"%u; "ᤕ"%u; "ᤖ"%u; "ᤗ"%u; "ᤘ"%u; "ᤙ"%u; "ᤚ"%u; "ᤛ"%u;
    "ᤜ"%u]);
   ("SouthConsonantMap"%u, ["ᤗʽ"%u; "ᤗʽ"%u; "ᤖʽ"%u; "ᤏʽ"%u]);
   ("NuktaConsonantMap"%u, ["ᤁʽ"%u; "ᤂʽ"%u; "ᤃʽ"%u; "ᤈʽ"%u; "ᤍʽ"%u; "ᤎʽ"%u; "ᤑʽ"%u; "ᤕʽ"%u]);
   ("SinhalaConsonantMap"%u, [[0x1932; 0x1903; 0x2BD]%N; [0x1932; 0x1908; 0x2BD]%N; [0x1932; 0x190D; 0x2BD]%N; [0x1932; 0x190D; 0x2BD]%N; [0x1932; 0x1912; 0x2BD]%N]);
   ("NuktaMap"%u, ["ʽʽʽʽ"%u]);
   ("OmMap"%u, ["ᤀᤥᤲ"%u]);
   ("SignMap"%u, ["'"%u; "।"%u; "॥"%u]);
   ("Aytham"%u, ["ᤜ᤻ʽʼ"%u]);
   ("NumeralMap"%u, ["᥆"%u; "᥇"%u; "᥈"%u; "᥉"%u; "᥊"%u; "᥋"%u; "᥌"%u; "᥍"%u;
    "᥎"%u; "᥏"%u])].

(** aksharamukha/ScriptMap/MainIndic/LimbuLoC.py:5-171 *)
Definition S_MainIndic_LimbuLoC : table :=
  [("VowelMap"%u, ["ᤀ"%u; "ᤀᤠ"%u; "ᤀᤡ"%u; "ᤀᤡʽ"%u; "ᤀᤢ"%u; "ᤀᤢʽ"%u; "ᤖᤢʽ"%u; "ᤖᤢʽʽ"%u;
    "ᤗᤢʽ"%u; "ᤗᤢʽʽ"%u; "ᤀᤣ"%u; "ᤀᤤ"%u; "ᤀᤥ"%u; "ᤀᤦ"%u]);
   ("ModernVowelMap"%u, ["ᤀᤧʽ"%u; "ᤀᤨʽ"%u]);
   ("SouthVowelMap"%u, ["ᤀᤧ"%u; "ᤀᤨ"%u]);
   ("SinhalaVowelMap"%u, ["ᤀᤣʽ"%u]);
   ("VowelSignMap"%u, [[0x1920]%N; [0x1921]%N; [0x1921; 0x2BD]%N; [0x1922]%N; [0x1922; 0x2BD]%N; [0x193B; 0x1916; 0x1922; 0x2BD]%N; [0x193B; 0x1916; 0x1922; 0x2BD; 0x2BD]%N; [0x193B; 0x1917; 0x1922; 0x2BD]%N;
    [0x193B; 0x1917; 0x1922; 0x2BD; 0x2BD]%N; [0x1923]%N; [0x1924]%N; [0x1925]%N; [0x1926]%N]);
   ("ModernVowelSignMap"%u, [[0x1927; 0x2BD]%N; [0x1928; 0x2BD]%N]);
   ("SouthVowelSignMap"%u, [[0x1927]%N; [0x1928]%N]);
   ("SinhalaVowelSignMap"%u, [[0x1923; 0x2BD]%N]);
   ("AyogavahaMap"%u, [[0x1932; 0x2BD]%N; [0x1932]%N; [0x1939]%N]);
   ("ViramaMap"%u, [[0x193B]%N]);
   ("ConsonantMap"%u, ["ᤁ"%u; "ᤂ"%u; "ᤃ"%u; "ᤄ"%u; "ᤅ"%u; "ᤆ"%u; "ᤇ"%u; "ᤈ"%u;
    "ᤉ"%u; "ᤊ"%u; "ᤋʽ"%u; "ᤌʽ"%u; "ᤍʽ"%u; "ᤎʽ"%u; "ᤏʽ"%u; "ᤋ"%u;
    "ᤌ"%u; "ᤍ"%u; "ᤎ"%u; "ᤏ"%u; "ᤐ"%u; "ᤑ"%u; "ᤒ"%u; "ᤓ"%u;
    "ᤔ"%u; "ᤕ"%u; "ᤖ"%u; "ᤗ"%u; "ᤘ"%u; "ᤙ"%u; "ᤚ"%u; "ᤛ"%u;
    "ᤜ"%u]);
   ("SouthConsonantMap"%u, ["ᤗʽ"%u; "ᤗʽ"%u; "ᤖʽ"%u; "ᤏʽ"%u]);
   ("NuktaConsonantMap"%u, ["ᤁʽ"%u; "ᤂʽ"%u; "ᤃʽ"%u; "ᤈʽ"%u; "ᤍʽ"%u; "ᤎʽ"%u; "ᤑʽ"%u; "ᤕʽ"%u]);
   ("SinhalaConsonantMap"%u, [[0x1932; 0x1903; 0x2BD]%N; [0x1932; 0x1908; 0x2BD]%N; [0x1932; 0x190D; 0x2BD]%N; [0x1932; 0x190D; 0x2BD]%N; [0x1932; 0x1912; 0x2BD]%N]);
   ("NuktaMap"%u, ["ʽʽʽʽ"%u]);
   ("OmMap"%u, ["ᤀᤥᤲ"%u]);
   ("SignMap"%u, [[0x193A]%N; "।"%u; "॥"%u]);
   ("Aytham"%u, [[0x1939; 0x2BC]%N]);
   ("NumeralMap"%u, ["᥆"%u; "᥇"%u; "᥈"%u; "᥉"%u; "᥊"%u; "᥋"%u; "᥌"%u; "᥍"%u;
    "᥎"%u; "᥏"%u])].

(** aksharamukha/ScriptMap/MainIndic/Mahajani.py:5-171 *)
Definition S_MainIndic_Mahajani : table :=
  [("VowelMap"%u, ["𑅐"%u; "𑅐ʽ"%u; "𑅑"%u; "𑅑ʽ"%u; "𑅒"%u; "𑅒ʽ"%u; "𑅭𑅒ʽ"%u; "𑅭𑅒ʽ"%u;
    "𑅮𑅒ʽ"%u; "𑅮𑅒ʽ"%u; "𑅓"%u; "𑅑ʽ"%u; "𑅔"%u; "𑅒ʽ"%u]);
   ("SouthVowelMap"%u, ["𑅓ʽ"%u; "𑅔ʽ"%u]);
   ("ModernVowelMap"%u, ["𑅓ʽ"%u; "𑅐ʽ"%u]);
   ("SinhalaVowelMap"%u, ["𑅓ʽ"%u]);
   ("VowelSignMap"%u, ["𑅐ʽ"%u; "𑅑ʽ"%u; "ʿ𑅑"%u; "𑅒ʽ"%u; "𑅒ʽ"%u; "𑅭𑅒ʽ"%u; "𑅭𑅒ʽ"%u; "𑅮𑅒ʽ"%u;
    "𑅮𑅒ʽ"%u; "𑅓ʽ"%u; "𑅑ʽ"%u; "𑅔ʽ"%u; "𑅒ʽ"%u]);
   ("SouthVowelSignMap"%u, ["𑅓ʽ"%u; "𑅔ʽ"%u]);
   ("ModernVowelSignMap"%u, ["𑅓ʽ"%u; "𑅐ʽ"%u]);
   ("SinhalaVowelSignMap"%u, ["𑅓ʽ"%u]);
   ("AyogavahaMap"%u, ["𑅧ʽ"%u; "𑅧ʽ"%u; "𑅱ʽ"%u]);
   ("ViramaMap"%u, ["ʾ"%u]);
   ("ConsonantMap"%u, ["𑅕"%u; "𑅖"%u; "𑅗"%u; "𑅘"%u; "𑅧ʽ"%u; "𑅙"%u; "𑅚"%u; "𑅛"%u;
    "𑅜"%u; "𑅝"%u; "𑅞"%u; "𑅟"%u; "𑅠"%u; "𑅡"%u; "𑅢"%u; "𑅣"%u;
    "𑅤"%u; "𑅥"%u; "𑅦"%u; "𑅧"%u; "𑅨"%u; "𑅩"%u; "𑅪"%u; "𑅫"%u;
    "𑅬"%u; "𑅛ʽ"%u; "𑅭"%u; "𑅮"%u; "𑅯"%u; "𑅰𑅳"%u; "𑅖𑅳ʽ"%u; "𑅰"%u;
    "𑅱"%u]);
   ("SouthConsonantMap"%u, ["𑅮𑅳"%u; "𑅮𑅳ʽ"%u; "𑅭𑅳"%u; "𑅧𑅳"%u]);
   ("NuktaConsonantMap"%u, ["𑅕𑅳"%u; "𑅖𑅳"%u; "𑅗𑅳"%u; "𑅛𑅳"%u; "𑅲"%u; "𑅡𑅳"%u; "𑅩𑅳"%u; "𑅛ʽ"%u]);
   ("SinhalaConsonantMap"%u, ["𑅧𑅗ʽ"%u; "𑅧𑅛ʽ"%u; "𑅧𑅠ʽ"%u; "𑅧𑅥ʽ"%u; "𑅧𑅪ʽ"%u]);
   ("NuktaMap"%u, [[0x11173]%N]);
   ("OmMap"%u, ["𑅔𑅬"%u]);
   ("SignMap"%u, ["ʽʽ"%u; "।"%u; "॥"%u]);
   ("Aytham"%u, ["𑅱ʽʽ"%u]);
   ("NumeralMap"%u, ["०"%u; "१"%u; "२"%u; "३"%u; "४"%u; "५"%u; "६"%u; "७"%u;
    "८"%u; "९"%u])].

(** aksharamukha/ScriptMap/MainIndic/Malayalam.py:5-170 *)
Definition S_MainIndic_Malayalam : table :=
  [("VowelMap"%u, ["അ"%u; "ആ"%u; "ഇ"%u; "ഈ"%u; "ഉ"%u; "ഊ"%u; "ഋ"%u; "ൠ"%u;
    "ഌ"%u; "ൡ"%u; "ഏ"%u; "ഐ"%u; "ഓ"%u; "ഔ"%u]);
   ("SouthVowelMap"%u, ["എ"%u; "ഒ"%u]);
   ("ModernVowelMap"%u, ["എʼ"%u; "ആʼ"%u]);
   ("SinhalaVowelMap"%u, ["ഏˇ"%u]);
   ("VowelSignMap"%u, [[0xD3E]%N; [0xD3F]%N; [0xD40]%N; [0xD41]%N; [0xD42]%N; [0xD43]%N; [0xD44]%N; [0xD62]%N;
    [0xD63]%N; [0xD47]%N; [0xD48]%N; [0xD4B]%N; [0xD57]%N]);
   ("SouthVowelSignMap"%u, [[0xD46]%N; [0xD4A]%N]);
   ("ModernVowelSignMap"%u, [[0xD46; 0x2BC]%N; [0xD3E; 0x2BC]%N]);
   ("SinhalaVowelSignMap"%u, [[0xD47; 0x2C7]%N]);
   ("AyogavahaMap"%u, [[0xD01]%N; [0xD02]%N; [0xD03]%N]);
   ("ViramaMap"%u, [[0xD4D]%N]);
   ("ConsonantMap"%u, ["ക"%u; "ഖ"%u; "ഗ"%u; "ഘ"%u; "ങ"%u; "ച"%u; "ഛ"%u; "ജ"%u;
    "ഝ"%u; "ഞ"%u; "ട"%u; "ഠ"%u; "ഡ"%u; "ഢ"%u; "ണ"%u; "ത"%u;
    "ഥ"%u; "ദ"%u; "ധ"%u; "ന"%u; "പ"%u; "ഫ"%u; "ബ"%u; "ഭ"%u;
    "മ"%u; "യ"%u; "ര"%u; "ല"%u; "വ"%u; "ശ"%u; "ഷ"%u; "സ"%u;
    "ഹ"%u]);
   ("SouthConsonantMap"%u, ["ള"%u; "ഴ"%u; "റ"%u; "ഩ"%u]);
   ("NuktaConsonantMap"%u, ["ക·"%u; "ഖ·"%u; "ഗ·"%u; "ജ·"%u; "ഡ·"%u; "ഢ·"%u; "ഫ·"%u; "യ·"%u]);
   ("SinhalaConsonantMap"%u, [[0xD02; 0x2C6; 0xD17]%N; [0xD02; 0x2C6; 0xD1C]%N; [0xD02; 0x2C6; 0xD21]%N; [0xD02; 0x2C6; 0xD26]%N; [0xD02; 0x2C6; 0xD2C]%N]);
   ("NuktaMap"%u, ["·"%u]);
   ("OmMap"%u, ["ഓം"%u]);
   ("SignMap"%u, ["ഽ"%u; "।"%u; "॥"%u]);
   ("Aytham"%u, [[0xD03; 0x2BC]%N]);
   ("NumeralMap"%u, ["൦"%u; "൧"%u; "൨"%u; "൩"%u; "൪"%u; "൫"%u; "൬"%u; "൭"%u;
    "൮"%u; "൯"%u])].

(** aksharamukha/ScriptMap/MainIndic/MasaramGondi.py:5-170 *)
Definition S_MainIndic_MasaramGondi : table :=
  [("VowelMap"%u, ["𑴀"%u; "𑴁"%u; "𑴂"%u; "𑴃"%u; "𑴄"%u; "𑴅"%u; "𑴦𑴶"%u; "𑴦𑴵ʽ"%u;
    "𑴧𑴴ʽ"%u; "𑴧𑴵ʽ"%u; "𑴆"%u; "𑴈"%u; "𑴉"%u; "𑴋"%u]);
   ("SouthVowelMap"%u, ["𑴆ʽ"%u; "𑴉ʽ"%u]);
   ("ModernVowelMap"%u, ["𑴆𑵃"%u; "𑴁𑵃"%u]);
   ("SinhalaVowelMap"%u, ["𑴆𑵃ʽ"%u]);
   ("VowelSignMap"%u, [[0x11D31]%N; [0x11D32]%N; [0x11D33]%N; [0x11D34]%N; [0x11D35]%N; [0x11D36]%N; [0x11D45; 0x11D26; 0x11D35; 0x2BD]%N; [0x11D45; 0x11D27; 0x11D34; 0x2BD]%N;
    [0x11D45; 0x11D27; 0x11D35; 0x2BD]%N; [0x11D3A]%N; [0x11D3C]%N; [0x11D3D]%N; [0x11D3F]%N]);
   ("SouthVowelSignMap"%u, [[0x11D3A; 0x2BD]%N; [0x11D3D; 0x2BD]%N]);
   ("ModernVowelSignMap"%u, [[0x11D3A; 0x11D43]%N; [0x11D31; 0x11D43]%N]);
   ("SinhalaVowelSignMap"%u, [[0x11D3A; 0x11D43; 0x2BD]%N]);
   ("AyogavahaMap"%u, [[0x11D40; 0x2BD]%N; [0x11D40]%N; [0x11D41]%N]);
   ("ViramaMap"%u, [[0x11D45]%N]);
   ("ConsonantMap"%u, ["𑴌"%u; "𑴍"%u; "𑴎"%u; "𑴏"%u; "𑴐"%u; "𑴑"%u; "𑴒"%u; "𑴓"%u;
    "𑴔"%u; "𑴕"%u; "𑴖"%u; "𑴗"%u; "𑴘"%u; "𑴙"%u; "𑴚"%u; "𑴛"%u;
    "𑴜"%u; "𑴝"%u; "𑴞"%u; "𑴟"%u; "𑴠"%u; "𑴡"%u; "𑴢"%u; "𑴣"%u;
    "𑴤"%u; "𑴥"%u; "𑴦"%u; "𑴧"%u; "𑴨"%u; "𑴩"%u; "𑴪"%u; "𑴫"%u;
    "𑴬"%u]);
   ("SouthConsonantMap"%u, ["𑴭"%u; "𑴭𑵂"%u; "𑴦𑵂"%u; "𑴟𑵂"%u]);
   ("NuktaConsonantMap"%u, ["𑴌𑵂"%u; "𑴍𑵂"%u; "𑴎𑵂"%u; "𑴓𑵂"%u; "𑴘𑵂"%u; "𑴙𑵂"%u; "𑴡𑵂"%u; "𑴥𑵂"%u]);
   ("SinhalaConsonantMap"%u, [[0x11D40; 0x11D0E; 0x2BD]%N; [0x11D40; 0x11D13; 0x2BD]%N; [0x11D40; 0x11D18; 0x2BD]%N; [0x11D40; 0x11D1D; 0x2BD]%N; [0x11D40; 0x11D22; 0x2BD]%N]);
   ("NuktaMap"%u, ["ʽʽ"%u]);
   ("OmMap"%u, ["𑴉𑵀"%u]);
   ("SignMap"%u, ["ʽʽʽ"%u; "।"%u; "॥"%u]);
   ("Aytham"%u, [[0x11D41; 0x2BD]%N]);
   ("NumeralMap"%u, ["𑵐"%u; "𑵑"%u; "𑵒"%u; "𑵓"%u; "𑵔"%u; "𑵕"%u; "𑵖"%u; "𑵗"%u;
    "𑵘"%u; "𑵙"%u])].

(** aksharamukha/ScriptMap/MainIndic/MeeteiMayek.py:5-171 *)
Definition S_MainIndic_MeeteiMayek : table :=
  [("VowelMap"%u, ["ꯑ"%u; "ꯑꯥ"%u; "ꯏ"%u; "ꯑꫫ"%u; "ꯎ"%u; "ꯑꫬ"%u; "ꯔꯨʽ"%u; "ꯔꫬʽ"%u;
    "ꯂꯨʽ"%u; "ꯂꫬʽ"%u; "ꯑꯦ"%u; "ꯑꯩ"%u; "ꯑꯣ"%u; "ꯑꯧ"%u]);
   ("SouthVowelMap"%u, ["ꯑꯦʽ"%u; "ꯑꯣʽ"%u]);
   ("ModernVowelMap"%u, ["ꯑꯦʽ"%u; "ꯑꯥʽ"%u]);
   ("SinhalaVowelMap"%u, ["ꯑꯦʽ"%u]);
   ("VowelSignMap"%u, [[0xABE5]%N; [0xABE4]%N; [0xAAEB]%N; [0xABE8]%N; [0xAAEC]%N; [0xABED; 0xABD4; 0xABE8; 0x2BD]%N; [0xABED; 0xABD4; 0xAAEC; 0x2BD]%N; [0xABED; 0xABC2; 0xABE8; 0x2BD]%N;
    [0xABED; 0xABC2; 0xAAEC; 0x2BD]%N; [0xABE6]%N; [0xABE9]%N; [0xABE3]%N; [0xABE7]%N]);
   ("SouthVowelSignMap"%u, [[0xABE6; 0x2BD]%N; [0xABE3; 0x2BD]%N]);
   ("ModernVowelSignMap"%u, [[0xABE6; 0x2BD]%N; [0xABE5; 0x2BD]%N]);
   ("SinhalaVowelSignMap"%u, [[0xABE6; 0x2BD]%N]);
   ("AyogavahaMap"%u, [[0xABEA; 0x2BD]%N; [0xABEA]%N; [0xAAF5]%N]);
   ("ViramaMap"%u, [[0xABED]%N]);
   ("ConsonantMap"%u, ["ꯀ"%u; "ꯈ"%u; "ꯒ"%u; "ꯘ"%u; "ꯉ"%u; "ꯆ"%u; "ꫢ"%u; "ꯖ"%u;
    "ꯓ"%u; "ꫣ"%u; "ꫤ"%u; "ꫥ"%u; "ꫦ"%u; "ꫧ"%u; "ꫨ"%u; "ꯇ"%u;
    "ꯊ"%u; "ꯗ"%u; "ꯙ"%u; "ꯅ"%u; "ꯄ"%u; "ꯐ"%u; "ꯕ"%u; "ꯚ"%u;
    "ꯃ"%u; "ꯌ"%u; "ꯔ"%u; "ꯂ"%u; "ꯋ"%u; "ꫩ"%u; "ꫪ"%u; "ꯁ"%u;
    "ꯍ"%u]);
   ("SouthConsonantMap"%u, ["ꯂʽ"%u; "ꯂʽ"%u; "ꯔʽ"%u; "ꯅʽ"%u]);
   ("NuktaConsonantMap"%u, ["ꯀʽ"%u; "ꯈʽ"%u; "ꯒʽ"%u; "ꯖʽ"%u; "ꯗʽ"%u; "ꯙʽ"%u; "ꯐʽ"%u; "ꯌʽ"%u]);
   ("SinhalaConsonantMap"%u, [[0xABEA; 0xABD2; 0x2BD]%N; [0xABEA; 0xABD6; 0x2BD]%N; [0xABEA; 0xABD7; 0x2BD]%N; [0xABEA; 0xABD7; 0x2BD]%N; [0xABEA; 0xABD5; 0x2BD]%N]);
   ("NuktaMap"%u, ["ʽʽʽʽ"%u]);
   ("OmMap"%u, ["ꯑꯣꯪ"%u]);
   ("SignMap"%u, ["'"%u; "꯫"%u; "꯫꯫"%u]);
   ("Aytham"%u, [[0xAAF5; 0x2BC]%N]);
   ("NumeralMap"%u, ["꯰"%u; "꯱"%u; "꯲"%u; "꯳"%u; "꯴"%u; "꯵"%u; "꯶"%u; "꯷"%u;
    "꯸"%u; "꯹"%u])].

(** aksharamukha/ScriptMap/MainIndic/Modi.py:5-171 *)
Definition S_MainIndic_Modi : table :=
  [("VowelMap"%u, ["𑘀"%u; "𑘁"%u; "𑘂"%u; "𑘃"%u; "𑘄"%u; "𑘅"%u; "𑘆"%u; "𑘇"%u;
    "𑘈"%u; "𑘉"%u; "𑘊"%u; "𑘋"%u; "𑘌"%u; "𑘍"%u]);
   ("SouthVowelMap"%u, ["𑘊ʽ"%u; "𑘌ʽ"%u]);
   ("ModernVowelMap"%u, ["𑘀𑙀"%u; "𑘁ʽ"%u]);
   ("SinhalaVowelMap"%u, ["𑘊ʽ"%u]);
   ("VowelSignMap"%u, [[0x11630]%N; [0x11631]%N; [0x11632]%N; [0x11633]%N; [0x11634]%N; [0x11635]%N; [0x11636]%N; [0x11637]%N;
    [0x11638]%N; [0x11639]%N; [0x1163A]%N; [0x1163B]%N; [0x1163C]%N]);
   ("SouthVowelSignMap"%u, [[0x11639; 0x2BD]%N; [0x1163B; 0x2BD]%N]);
   ("ModernVowelSignMap"%u, [[0x11640]%N; [0x11630; 0x2BD]%N]);
   ("SinhalaVowelSignMap"%u, [[0x11639; 0x2BD]%N]);
   ("AyogavahaMap"%u, [[0x1163D; 0x2BD]%N; [0x1163D]%N; [0x1163E]%N]);
   ("ViramaMap"%u, [[0x1163F]%N]);
   ("ConsonantMap"%u, ["𑘎"%u; "𑘏"%u; "𑘐"%u; "𑘑"%u; "𑘒"%u; "𑘓"%u; "𑘔"%u; "𑘕"%u;
    "𑘖"%u; "𑘗"%u; "𑘘"%u; "𑘙"%u; "𑘚"%u; "𑘛"%u; "𑘜"%u; "𑘝"%u;
    "𑘞"%u; "𑘟"%u; "𑘠"%u; "𑘡"%u; "𑘢"%u; "𑘣"%u; "𑘤"%u; "𑘥"%u;
    "𑘦"%u; "𑘧"%u; "𑘨"%u; "𑘩"%u; "𑘪"%u; "𑘫"%u; "𑘬"%u; "𑘭"%u;
    "𑘮"%u]);
   ("SouthConsonantMap"%u, ["𑘯"%u; "𑘯ʽ"%u; "𑘬ʽ"%u; "𑘡ʽ"%u]);
   ("NuktaConsonantMap"%u, ["𑘎ʽ"%u; "𑘏ʽ"%u; "𑘐ʽ"%u; "𑘕ʽ"%u; "𑘚ʽ"%u; "𑘛ʽ"%u; "𑘣ʽ"%u; "𑘧ʽ"%u]);
   ("SinhalaConsonantMap"%u, [[0x1163D; 0x11610; 0x2BD]%N; [0x1163D; 0x11615; 0x2BD]%N; [0x1163D; 0x1161A; 0x2BD]%N; [0x1163D; 0x1161F; 0x2BD]%N; [0x1163D; 0x11624; 0x2BD]%N]);
   ("NuktaMap"%u, ["ʽʽʽʽ"%u]);
   ("OmMap"%u, ["𑘌𑘽"%u]);
   ("SignMap"%u, ["ऽ"%u; "𑙁"%u; "𑙂"%u]);
   ("Aytham"%u, [[0x1163E; 0x2BD]%N]);
   ("NumeralMap"%u, ["𑙐"%u; "𑙑"%u; "𑙒"%u; "𑙓"%u; "𑙔"%u; "𑙕"%u; "𑙖"%u; "𑙗"%u;
    "𑙘"%u; "𑙙"%u])].

(** aksharamukha/ScriptMap/MainIndic/Multani.py:5-171 *)
Definition S_MainIndic_Multani : table :=
  [("VowelMap"%u, ["𑊀"%u; "𑊀ʽ"%u; "𑊁"%u; "𑊁ʽ"%u; "𑊂"%u; "𑊂ʽ"%u; "𑊢𑊂ʽ"%u; "𑊢𑊂ʽ"%u;
    "𑊣𑊂ʽ"%u; "𑊣𑊂ʽ"%u; "𑊃"%u; "𑊃ʽ"%u; "𑊂ʽ"%u; "𑊂ʽ"%u]);
   ("SouthVowelMap"%u, ["𑊃ʽ"%u; "𑊂ʽ"%u]);
   ("ModernVowelMap"%u, ["𑊃ʽ"%u; "𑊀ʽ"%u]);
   ("SinhalaVowelMap"%u, ["𑊃ʽ"%u]);
   ("VowelSignMap"%u, ["𑊀ʿ"%u; "𑊁ʿ"%u; "𑊁ʿ"%u; "𑊂ʿ"%u; "𑊂ʿ"%u; "𑊢𑊂ʿ"%u; "𑊢𑊂ʿ"%u; "𑊣𑊂ʿ"%u;
    "𑊣𑊂ʿ"%u; "𑊃ʿ"%u; "𑊃ʿ"%u; "𑊂ʿ"%u; "𑊂ʿ"%u]);
   ("SouthVowelSignMap"%u, ["𑊃ʿ"%u; "𑊂ʿ"%u]);
   ("ModernVowelSignMap"%u, ["𑊃ʿ"%u; "𑊀ʿ"%u]);
   ("SinhalaVowelSignMap"%u, ["𑊃ʿ"%u]);
   ("AyogavahaMap"%u, ["𑊚ʽ"%u; "𑊚ʽ"%u; "𑊦ʽ"%u]);
   ("ViramaMap"%u, ["ʾ"%u]);
   ("ConsonantMap"%u, ["𑊄"%u; "𑊅"%u; "𑊆"%u; "𑊈"%u; "𑊚ʽ"%u; "𑊊"%u; "𑊋"%u; "𑊌"%u;
    "𑊌ʽ"%u; "𑊏"%u; "𑊐"%u; "𑊑"%u; "𑊒"%u; "𑊔"%u; "𑊕"%u; "𑊖"%u;
    "𑊗"%u; "𑊘"%u; "𑊙"%u; "𑊚"%u; "𑊛"%u; "𑊜"%u; "𑊝"%u; "𑊟"%u;
    "𑊠"%u; "𑊡"%u; "𑊢"%u; "𑊣"%u; "𑊤"%u; "𑊥ʽ"%u; "𑊥ʽ"%u; "𑊥"%u;
    "𑊦"%u]);
   ("SouthConsonantMap"%u, ["𑊣ʽ"%u; "𑊣ʽ"%u; "𑊢ʽ"%u; "𑊚ʽ"%u]);
   ("NuktaConsonantMap"%u, ["𑊄ʽ"%u; "𑊅ʽ"%u; "𑊆ʽ"%u; "𑊌ʽ"%u; "𑊧"%u; "𑊨"%u; "𑊜ʽ"%u; "𑊡ʽ"%u]);
   ("SinhalaConsonantMap"%u, ["𑊚𑊆ʽ"%u; "𑊚𑊌ʽ"%u; "𑊚𑊒ʽ"%u; "𑊚𑊘ʽ"%u; "𑊠𑊝ʽ"%u]);
   ("NuktaMap"%u, ["ʽʽʽ"%u]);
   ("OmMap"%u, ["𑊂𑊠ʽ"%u]);
   ("SignMap"%u, ["ʽʽ"%u; "।"%u; "॥"%u]);
   ("Aytham"%u, ["𑊦ʽʽ"%u]);
   ("NumeralMap"%u, ["੦"%u; "੧"%u; "੨"%u; "੩"%u; "੪"%u; "੫"%u; "੬"%u; "੭"%u;
    "੮"%u; "੯"%u])].

(** aksharamukha/ScriptMap/MainIndic/Nandinagari.py:5-170 *)
Definition S_MainIndic_Nandinagari : table :=
  [("VowelMap"%u, ["𑦠"%u; "𑦡"%u; "𑦢"%u; "𑦣"%u; "𑦤"%u; "𑦥"%u; "𑦦"%u; "𑦧"%u;
    "𑧉𑧔ʽ"%u; "𑧉𑧕ʽ"%u; "𑦪"%u; "𑦫"%u; "𑦬"%u; "𑦭"%u]);
   ("SouthVowelMap"%u, ["𑦪ʽ"%u; "𑦬ʽ"%u]);
   ("ModernVowelMap"%u, ["𑦪ʽ"%u; "𑦡ʽ"%u]);
   ("SinhalaVowelMap"%u, ["𑦪ʽ"%u]);
   ("VowelSignMap"%u, [[0x119D1]%N; [0x119D2]%N; [0x119D3]%N; [0x119D4]%N; [0x119D5]%N; [0x119D6]%N; [0x119D7]%N; [0x119E0; 0x119C9; 0x119D4; 0x2BD]%N;
    [0x119E0; 0x119C9; 0x119D5; 0x2BD]%N; [0x119DA]%N; [0x119DB]%N; [0x119DC]%N; [0x119DD]%N]);
   ("SouthVowelSignMap"%u, [[0x119DA; 0x2BD]%N; [0x119DC; 0x2BD]%N]);
   ("ModernVowelSignMap"%u, [[0x119D1; 0x2BD]%N; [0x119DA; 0x2BD]%N]);
   ("SinhalaVowelSignMap"%u, [[0x119DA; 0x2BD]%N]);
   ("AyogavahaMap"%u, [[0x119DE; 0x2BD]%N; [0x119DE]%N; [0x119DF]%N]);
   ("ViramaMap"%u, [[0x119E0]%N]);
   ("ConsonantMap"%u, ["𑦮"%u; "𑦯"%u; "𑦰"%u; "𑦱"%u; "𑦲"%u; "𑦳"%u; "𑦴"%u; "𑦵"%u;
    "𑦶"%u; "𑦷"%u; "𑦸"%u; "𑦹"%u; "𑦺"%u; "𑦻"%u; "𑦼"%u; "𑦽"%u;
    "𑦾"%u; "𑦿"%u; "𑧀"%u; "𑧁"%u; "𑧂"%u; "𑧃"%u; "𑧄"%u; "𑧅"%u;
    "𑧆"%u; "𑧇"%u; "𑧈"%u; "𑧉"%u; "𑧊"%u; "𑧋"%u; "𑧌"%u; "𑧍"%u;
    "𑧎"%u]);
   ("SouthConsonantMap"%u, ["𑧏ʽ"%u; "𑧏"%u; "𑧐"%u; "𑧁ʽ"%u]);
   ("NuktaConsonantMap"%u, ["𑦮ʽ"%u; "𑦯ʽ"%u; "𑦰ʽ"%u; "𑦵ʽ"%u; "𑦺ʽ"%u; "𑦻ʽ"%u; "𑧃ʽ"%u; "𑧇ʽ"%u]);
   ("SinhalaConsonantMap"%u, [[0x119DE; 0x2BD; 0x119B0]%N; [0x119DE; 0x2BD; 0x119B5]%N; [0x119DE; 0x2BD; 0x119BA]%N; [0x119DE; 0x2BD; 0x119BF]%N; [0x119DE; 0x2BD; 0x119C4]%N]);
   ("NuktaMap"%u, ["ʽʽ"%u]);
   ("OmMap"%u, ["𑦬𑧞"%u]);
   ("SignMap"%u, ["𑧡"%u; "।"%u; "॥"%u]);
   ("Aytham"%u, [[0x119DF; 0x2BD]%N]);
   ("NumeralMap"%u, ["೦"%u; "೧"%u; "೨"%u; "೩"%u; "೪"%u; "೫"%u; "೬"%u; "೭"%u;
    "೮"%u; "೯"%u])].

(** aksharamukha/ScriptMap/MainIndic/Newa.py:5-170 *)
Definition S_MainIndic_Newa : table :=
  [("VowelMap"%u, ["𑐀"%u; "𑐁"%u; "𑐂"%u; "𑐃"%u; "𑐄"%u; "𑐅"%u; "𑐆"%u; "𑐇"%u;
    "𑐈"%u; "𑐉"%u; "𑐊"%u; "𑐋"%u; "𑐌"%u; "𑐍"%u]);
   ("SouthVowelMap"%u, ["𑐊ʽ"%u; "𑐌ʽ"%u]);
   ("ModernVowelMap"%u, ["𑐊ʽ"%u; "𑐁ʽ"%u]);
   ("SinhalaVowelMap"%u, ["𑐊ʽ"%u]);
   ("VowelSignMap"%u, [[0x11435]%N; [0x11436]%N; [0x11437]%N; [0x11438]%N; [0x11439]%N; [0x1143A]%N; [0x1143B]%N; [0x1143C]%N;
    [0x1143D]%N; [0x1143E]%N; [0x1143F]%N; [0x11440]%N; [0x11441]%N]);
   ("SouthVowelSignMap"%u, [[0x1143E; 0x2BD]%N; [0x11440; 0x2BD]%N]);
   ("ModernVowelSignMap"%u, [[0x1143E; 0x2BD]%N; [0x11436; 0x2BD]%N]);
   ("SinhalaVowelSignMap"%u, [[0x1143E; 0x2BD]%N]);
   ("AyogavahaMap"%u, [[0x11443]%N; [0x11444]%N; [0x11445]%N]);
   ("ViramaMap"%u, [[0x11442]%N]);
   ("ConsonantMap"%u, ["𑐎"%u; "𑐏"%u; "𑐐"%u; "𑐑"%u; "𑐒"%u; "𑐔"%u; "𑐕"%u; "𑐖"%u;
    "𑐗"%u; "𑐘"%u; "𑐚"%u; "𑐛"%u; "𑐜"%u; "𑐝"%u; "𑐞"%u; "𑐟"%u;
    "𑐠"%u; "𑐡"%u; "𑐢"%u; "𑐣"%u; "𑐥"%u; "𑐦"%u; "𑐧"%u; "𑐨"%u;
    "𑐩"%u; "𑐫"%u; "𑐬"%u; "𑐮"%u; "𑐰"%u; "𑐱"%u; "𑐲"%u; "𑐳"%u;
    "𑐴"%u]);
   ("SouthConsonantMap"%u, ["𑐮𑑆"%u; "𑐲𑑆"%u; "𑐬𑑆"%u; "𑐣𑑆"%u]);
   ("NuktaConsonantMap"%u, ["𑐎𑑆"%u; "𑐏𑑆"%u; "𑐐𑑆"%u; "𑐖𑑆"%u; "𑐜𑑆"%u; "𑐝𑑆"%u; "𑐦𑑆"%u; "𑐫𑑆"%u]);
   ("SinhalaConsonantMap"%u, [[0x11443; 0x11410; 0x2BD]%N; [0x11443; 0x11416; 0x2BD]%N; [0x11443; 0x1141C; 0x2BD]%N; [0x11443; 0x11421; 0x2BD]%N; [0x11443; 0x11427; 0x2BD]%N]);
   ("NuktaMap"%u, [[0x11446]%N]);
   ("OmMap"%u, ["𑑉"%u]);
   ("SignMap"%u, ["𑑇"%u; "𑑋"%u; "𑑌"%u]);
   ("Aytham"%u, [[0x11445; 0x2BD]%N]);
   ("NumeralMap"%u, ["𑑐"%u; "𑑑"%u; "𑑒"%u; "𑑓"%u; "𑑔"%u; "𑑕"%u; "𑑖"%u; "𑑗"%u;
    "𑑘"%u; "𑑙"%u])].

(** aksharamukha/ScriptMap/MainIndic/Oriya.py:5-170 *)
Definition S_MainIndic_Oriya : table :=
  [("VowelMap"%u, ["ଅ"%u; "ଆ"%u; "ଇ"%u; "ଈ"%u; "ଉ"%u; "ଊ"%u; "ଋ"%u; "ୠ"%u;
    "ଌ"%u; "ୡ"%u; "ଏ"%u; "ଐ"%u; "ଓ"%u; "ଔ"%u]);
   ("SouthVowelMap"%u, ["ଏ˘"%u; "ଓ˘"%u]);
   ("ModernVowelMap"%u, ["ଏʼ"%u; "ଆʼ"%u]);
   ("SinhalaVowelMap"%u, ["ଏˇ"%u]);
   ("VowelSignMap"%u, [[0xB3E]%N; [0xB3F]%N; [0xB40]%N; [0xB41]%N; [0xB42]%N; [0xB43]%N; [0xB44]%N; [0xB62]%N;
    [0xB63]%N; [0xB47]%N; [0xB48]%N; [0xB4B]%N; [0xB4C]%N]);
   ("SouthVowelSignMap"%u, [[0xB47; 0x2D8]%N; [0xB4B; 0x2D8]%N]);
   ("ModernVowelSignMap"%u, [[0xB47; 0x2BC]%N; [0xB3E; 0x2BC]%N]);
   ("SinhalaVowelSignMap"%u, [[0xB47; 0x2C7]%N]);
   ("AyogavahaMap"%u, [[0xB01]%N; [0xB02]%N; [0xB03]%N]);
   ("ViramaMap"%u, [[0xB4D]%N]);
   ("ConsonantMap"%u, ["କ"%u; "ଖ"%u; "ଗ"%u; "ଘ"%u; "ଙ"%u; "ଚ"%u; "ଛ"%u; "ଜ"%u;
    "ଝ"%u; "ଞ"%u; "ଟ"%u; "ଠ"%u; "ଡ"%u; "ଢ"%u; "ଣ"%u; "ତ"%u;
    "ଥ"%u; "ଦ"%u; "ଧ"%u; "ନ"%u; "ପ"%u; "ଫ"%u; "ବ"%u; "ଭ"%u;
    "ମ"%u; "ଯ"%u; "ର"%u; "ଲ"%u; "ୱ"%u; "ଶ"%u; "ଷ"%u; "ସ"%u;
    "ହ"%u]);
   ("SouthConsonantMap"%u, ["ଳ"%u; "ଳ଼"%u; "ର଼"%u; "ନ଼"%u]);
   ("NuktaConsonantMap"%u, ["କ଼"%u; "ଖ଼"%u; "ଗ଼"%u; "ଜ଼"%u; "ଡ଼"%u; "ଢ଼"%u; "ଫ଼"%u; "ୟ"%u]);
   ("SinhalaConsonantMap"%u, [[0xB01; 0x2C6; 0xB17]%N; [0xB01; 0x2C6; 0xB1C]%N; [0xB01; 0x2C6; 0xB21]%N; [0xB01; 0x2C6; 0xB26]%N; [0xB01; 0x2C6; 0xB2C]%N]);
   ("NuktaMap"%u, [[0xB3C]%N]);
   ("OmMap"%u, ["ଓଁ"%u]);
   ("SignMap"%u, ["ଽ"%u; "।"%u; "॥"%u]);
   ("Aytham"%u, [[0xB03; 0x2BC]%N]);
   ("NumeralMap"%u, ["୦"%u; "୧"%u; "୨"%u; "୩"%u; "୪"%u; "୫"%u; "୬"%u; "୭"%u;
    "୮"%u; "୯"%u])].

(** aksharamukha/ScriptMap/MainIndic/Ranjana.py:5-171 *)
Definition S_MainIndic_Ranjana : table :=
  [("VowelMap"%u, ["अ"%u; "आ"%u; "इ"%u; "ई"%u; "उ"%u; "ऊ"%u; "ऋ"%u; "ॠ"%u;
    "ऌ"%u; "ॡ"%u; "ए"%u; "ऐ"%u; "ओ"%u; "औ"%u]);
   ("SouthVowelMap"%u, ["एʽ"%u; "ओʽ"%u]);
   ("ModernVowelMap"%u, ["एʽ"%u; "आʽ"%u]);
   ("SinhalaVowelMap"%u, ["एʽ"%u]);
   ("VowelSignMap"%u, [[0x93E]%N; [0x93F]%N; [0x940]%N; [0x941]%N; [0x942]%N; [0x943]%N; [0x944]%N; [0x962]%N;
    [0x963]%N; [0x947]%N; [0x948]%N; [0x94B]%N; [0x94C]%N]);
   ("SouthVowelSignMap"%u, [[0x947; 0x2BD]%N; [0x94B; 0x2BD]%N]);
   ("ModernVowelSignMap"%u, [[0x947; 0x2BD]%N; [0x93E; 0x2BD]%N]);
   ("SinhalaVowelSignMap"%u, [[0x947; 0x2BD]%N]);
   ("AyogavahaMap"%u, [[0x901]%N; [0x902]%N; [0x903]%N]);
   ("ViramaMap"%u, [[0x94D]%N]);
   ("ConsonantMap"%u, ["क"%u; "ख"%u; "ग"%u; "घ"%u; "ङ"%u; "च"%u; "छ"%u; "ज"%u;
    "झ"%u; "ञ"%u; "ट"%u; "ठ"%u; "ड"%u; "ढ"%u; "ण"%u; "त"%u;
    "थ"%u; "द"%u; "ध"%u; "न"%u; "प"%u; "फ"%u; "ब"%u; "भ"%u;
    "म"%u; "य"%u; "र"%u; "ल"%u; "व"%u; "श"%u; "ष"%u; "स"%u;
    "ह"%u]);
   ("SouthConsonantMap"%u, ["लʽ"%u; "लʽ"%u; "रʽ"%u; "नʽ"%u]);
   ("NuktaConsonantMap"%u, ["कʽ"%u; "खʽ"%u; "गʽ"%u; "जʽ"%u; "डʽ"%u; "ढʽ"%u; "फʽ"%u; "यʽ"%u]);
   ("SinhalaConsonantMap"%u, [[0x901; 0x2BD; 0x917]%N; [0x901; 0x2BD; 0x91C]%N; [0x901; 0x2BD; 0x921]%N; [0x901; 0x2BD; 0x926]%N; [0x901; 0x2BD; 0x92C]%N]);
   ("NuktaMap"%u, [[0x93C]%N]);
   ("OmMap"%u, ["ॐ"%u]);
   ("SignMap"%u, ["ऽ"%u; "।"%u; "॥"%u]);
   ("Aytham"%u, [[0x903; 0x2BD]%N]);
   ("NumeralMap"%u, ["०"%u; "१"%u; "२"%u; "३"%u; "४"%u; "५"%u; "६"%u; "७"%u;
    "८"%u; "९"%u])].

(** aksharamukha/ScriptMap/MainIndic/Saurashtra.py:5-171 *)
Definition S_MainIndic_Saurashtra : table :=
  [("VowelMap"%u, ["ꢂ"%u; "ꢃ"%u; "ꢄ"%u; "ꢅ"%u; "ꢆ"%u; "ꢇ"%u; "ꢈ"%u; "ꢉ"%u;
    "ꢊ"%u; "ꢋ"%u; "ꢍ"%u; "ꢎ"%u; "ꢐ"%u; "ꢑ"%u]);
   ("SouthVowelMap"%u, ["ꢌ"%u; "ꢏ"%u]);
   ("ModernVowelMap"%u, ["ꢌʽ"%u; "ꢃʽ"%u]);
   ("SinhalaVowelMap"%u, ["ꢌʽ"%u]);
   ("VowelSignMap"%u, [[0xA8B5]%N; [0xA8B6]%N; [0xA8B7]%N; [0xA8B8]%N; [0xA8B9]%N; [0xA8BA]%N; [0xA8BB]%N; [0xA8BC]%N;
    [0xA8BD]%N; [0xA8BF]%N; [0xA8C0]%N; [0xA8C2]%N; [0xA8C3]%N]);
   ("SouthVowelSignMap"%u, [[0xA8BE]%N; [0xA8C1]%N]);
   ("ModernVowelSignMap"%u, [[0xA8BE; 0x2BD]%N; [0xA8B5; 0x2BD]%N]);
   ("SinhalaVowelSignMap"%u, [[0xA8BF; 0x2BD]%N]);
   ("AyogavahaMap"%u, [[0xA8C5]%N; [0xA880]%N; [0xA881]%N]);
   ("ViramaMap"%u, [[0xA8C4]%N]);
   ("ConsonantMap"%u, ["ꢒ"%u; "ꢓ"%u; "ꢔ"%u; "ꢕ"%u; "ꢖ"%u; "ꢗ"%u; "ꢘ"%u; "ꢙ"%u;
    "ꢚ"%u; "ꢛ"%u; "ꢜ"%u; "ꢝ"%u; "ꢞ"%u; "ꢟ"%u; "ꢠ"%u; "ꢡ"%u;
    "ꢢ"%u; "ꢣ"%u; "ꢤ"%u; "ꢥ"%u; "ꢦ"%u; "ꢧ"%u; "ꢨ"%u; "ꢩ"%u;
    "ꢪ"%u; "ꢫ"%u; "ꢬ"%u; "ꢭ"%u; "ꢮ"%u; "ꢯ"%u; "ꢰ"%u; "ꢱ"%u;
    "ꢲ"%u]);
   ("SouthConsonantMap"%u, ["ꢳ"%u; "ꢳʽ"%u; "ꢬʽ"%u; "ꢥʽ"%u]);
   ("NuktaConsonantMap"%u, ["ꢒʽ"%u; "ꢓʽ"%u; "ꢔʽ"%u; "ꢙʽ"%u; "ꢞʽ"%u; "ꢟʽ"%u; "ꢧʽ"%u; "ꢫʽ"%u]);
   ("SinhalaConsonantMap"%u, [[0xA880; 0x2BD; 0xA894]%N; [0xA880; 0x2BD; 0xA899]%N; [0xA880; 0x2BD; 0xA89E]%N; [0xA880; 0x2BD; 0xA8A3]%N; [0xA880; 0x2BD; 0xA8A8]%N]);
   ("NuktaMap"%u, ["ʽʽʽʽ"%u]);
   ("OmMap"%u, ["ꢐꢀ"%u]);
   ("SignMap"%u, ["ఽ"%u; "꣎"%u; "꣏"%u]);
   ("Aytham"%u, [[0xA881; 0x2BC]%N]);
   ("NumeralMap"%u, ["꣐"%u; "꣑"%u; "꣒"%u; "꣓"%u; "꣔"%u; "꣕"%u; "꣖"%u; "꣗"%u;
    "꣘"%u; "꣙"%u])].

(** aksharamukha/ScriptMap/MainIndic/Shahmukhi.py:5-172 *)
Definition S_MainIndic_Shahmukhi : table :=
  [("VowelMap"%u, ["اَ"%u; "آ"%u; "اِ"%u; "اِی"%u; "اُ"%u; "اُو"%u; "رِʽ"%u; "رِیʽ"%u;
    "لِʽ"%u; "لِیʽ"%u; "ای"%u; "اََی"%u; "او"%u; "اََو"%u]);
   ("SouthVowelMap"%u, ["ایʽ"%u; "اوʽ"%u]);
   ("ModernVowelMap"%u, ["ایʽ"%u; "آʽ"%u]);
   ("SinhalaVowelMap"%u, ["اےʽ"%u]);
   ("VowelSignMap"%u, ["ا"%u; [0x650]%N; [0x650; 0x6CC]%N; [0x64F]%N; [0x64F; 0x648]%N; [0x652; 0x631; 0x650; 0x2BD]%N; [0x652; 0x631; 0x650; 0x6CC; 0x2BD]%N; [0x652; 0x644; 0x650; 0x2BD]%N;
    [0x652; 0x644; 0x650; 0x6CC; 0x2BD]%N; "ی"%u; [0x64E; 0x64E; 0x6CC]%N; "و"%u; [0x64E; 0x64E; 0x648]%N]);
   ("SouthVowelSignMap"%u, ["یʽ"%u; "وʽ"%u]);
   ("ModernVowelSignMap"%u, ["یʽ"%u; "اʽ"%u]);
   ("SinhalaVowelSignMap"%u, ["یʽ"%u]);
   ("AyogavahaMap"%u, ["ںʽ"%u; "ں"%u; "ہ"%u]);
   ("ViramaMap"%u, [[0x652]%N]);
   ("ConsonantMap"%u, ["کَ"%u; "کھَ"%u; "گَ"%u; "گھَ"%u; "نʽَ"%u; "چَ"%u; "چھَ"%u; "جَ"%u;
    "جھَ"%u; "نʽَ"%u; "ٹَ"%u; "ٹھَ"%u; "ڈَ"%u; "ڈھَ"%u; "ݨَ"%u; "تَ"%u;
    "تھَ"%u; "دَ"%u; "دھَ"%u; "نَ"%u; "پَ"%u; "پھَ"%u; "بَ"%u; "بھَ"%u;
    "مَ"%u; "یَ"%u; "رَ"%u; "لَ"%u; "وَ"%u; "شَ"%u; "شَʽ"%u; "سَ"%u;
    "ہَ"%u]);
   ("SouthConsonantMap"%u, ["ࣇَ"%u; "لʽَ"%u; "رʽَ"%u; "نʽَ"%u]);
   ("NuktaConsonantMap"%u, ["قَ"%u; "خَ"%u; "غَ"%u; "زَ"%u; "ڑَ"%u; "ڑھَ"%u; "فَ"%u; "یَʽ"%u]);
   ("SinhalaConsonantMap"%u, ["ںگʽَ"%u; "ںجʽَ"%u; "ںڈʽَ"%u; "ںدʽَ"%u; "ںبʽَ"%u]);
   ("NuktaMap"%u, ["ʽʽʽʽ"%u]);
   ("OmMap"%u, ["اومْ"%u]);
   ("SignMap"%u, ["ʽʽ"%u; "۔"%u; "۔۔"%u]);
   ("Aytham"%u, ["ہʽ"%u]);
   ("NumeralMap"%u, ["۰"%u; "۱"%u; "۲"%u; "۳"%u; "۴"%u; "۵"%u; "۶"%u; "۷"%u;
    "۸"%u; "۹"%u])].

(** aksharamukha/ScriptMap/MainIndic/Sharada.py:5-171 *)
Definition S_MainIndic_Sharada : table :=
  [("VowelMap"%u, ["𑆃"%u; "𑆄"%u; "𑆅"%u; "𑆆"%u; "𑆇"%u; "𑆈"%u; "𑆉"%u; "𑆊"%u;
    "𑆋"%u; "𑆌"%u; "𑆍"%u; "𑆎"%u; "𑆏"%u; "𑆐"%u]);
   ("SouthVowelMap"%u, ["𑆍𑇌"%u; "𑆏𑇌"%u]);
   ("ModernVowelMap"%u, ["𑆃𑆾𑇋"%u; "𑆃𑆾𑇋𑆳"%u]);
   ("SinhalaVowelMap"%u, ["𑆃𑆾𑇋ʽ"%u]);
   ("VowelSignMap"%u, [[0x111B3]%N; [0x111B4]%N; [0x111B5]%N; [0x111B6]%N; [0x111B7]%N; [0x111B8]%N; [0x111B9]%N; [0x111BA]%N;
    [0x111BB]%N; [0x111BC]%N; [0x111BD]%N; [0x111BE]%N; [0x111BF]%N]);
   ("SouthVowelSignMap"%u, [[0x111BC; 0x111CC]%N; [0x111BE; 0x111CC]%N]);
   ("ModernVowelSignMap"%u, [[0x111BE; 0x111CB]%N; [0x111BE; 0x111CB; 0x111B3]%N]);
   ("SinhalaVowelSignMap"%u, [[0x111BE; 0x111CB; 0x2BD]%N]);
   ("AyogavahaMap"%u, [[0x11180]%N; [0x11181]%N; [0x11182]%N]);
   ("ViramaMap"%u, [[0x111C0]%N]);
   ("ConsonantMap"%u, ["𑆑"%u; "𑆒"%u; "𑆓"%u; "𑆔"%u; "𑆕"%u; "𑆖"%u; "𑆗"%u; "𑆘"%u;
    "𑆙"%u; "𑆚"%u; "𑆛"%u; "𑆜"%u; "𑆝"%u; "𑆞"%u; "𑆟"%u; "𑆠"%u;
    "𑆡"%u; "𑆢"%u; "𑆣"%u; "𑆤"%u; "𑆥"%u; "𑆦"%u; "𑆧"%u; "𑆨"%u;
    "𑆩"%u; "𑆪"%u; "𑆫"%u; "𑆬"%u; "𑆮"%u; "𑆯"%u; "𑆰"%u; "𑆱"%u;
    "𑆲"%u]);
   ("SouthConsonantMap"%u, ["𑆭"%u; "𑆭𑇊"%u; "𑆫𑇊"%u; "𑆤𑇊"%u]);
   ("NuktaConsonantMap"%u, ["𑆑𑇊"%u; "𑆒𑇊"%u; "𑆓𑇊"%u; "𑆘𑇊"%u; "𑆝𑇊"%u; "𑆞𑇊"%u; "𑆦𑇊"%u; "𑆪𑇊"%u]);
   ("SinhalaConsonantMap"%u, [[0x11180; 0x2BD; 0x11193]%N; [0x11180; 0x2BD; 0x11198]%N; [0x11180; 0x2BD; 0x1119D]%N; [0x11180; 0x2BD; 0x111A2]%N; [0x11180; 0x2BD; 0x111A7]%N]);
   ("NuktaMap"%u, [[0x111CA]%N]);
   ("OmMap"%u, ["𑆏𑆀"%u]);
   ("SignMap"%u, ["𑇁"%u; "𑇅"%u; "𑇆"%u]);
   ("Aytham"%u, [[0x11182; 0x2BD]%N]);
   ("NumeralMap"%u, ["𑇐"%u; "𑇑"%u; "𑇒"%u; "𑇓"%u; "𑇔"%u; "𑇕"%u; "𑇖"%u; "𑇗"%u;
    "𑇘"%u; "𑇙"%u])].

(** aksharamukha/ScriptMap/MainIndic/SiddhamDevanagari.py:5-171 *)
Definition S_MainIndic_SiddhamDevanagari : table :=
  [("VowelMap"%u, ["अ"%u; "आ"%u; "इ"%u; "ई"%u; "उ"%u; "ऊ"%u; "ऋ"%u; "ॠ"%u;
    "ऌ"%u; "ॡ"%u; "ए"%u; "ऐ"%u; "ओ"%u; "औ"%u]);
   ("SouthVowelMap"%u, ["एʽ"%u; "ओʽ"%u]);
   ("ModernVowelMap"%u, ["एʽ"%u; "आʽ"%u]);
   ("SinhalaVowelMap"%u, ["एʽ"%u]);
   ("VowelSignMap"%u, [[0x93E]%N; [0x93F]%N; [0x940]%N; [0x941]%N; [0x942]%N; [0x943]%N; [0x944]%N; [0x962]%N;
    [0x963]%N; [0x947]%N; [0x948]%N; [0x94B]%N; [0x94C]%N]);
   ("SouthVowelSignMap"%u, [[0x947; 0x2BD]%N; [0x94B; 0x2BD]%N]);
   ("ModernVowelSignMap"%u, [[0x947; 0x2BD]%N; [0x93E; 0x2BD]%N]);
   ("SinhalaVowelSignMap"%u, [[0x947; 0x2BD]%N]);
   ("AyogavahaMap"%u, [[0x901]%N; [0x902]%N; [0x903]%N]);
   ("ViramaMap"%u, [[0x94D]%N]);
   ("ConsonantMap"%u, ["क"%u; "ख"%u; "ग"%u; "घ"%u; "ङ"%u; "च"%u; "छ"%u; "ज"%u;
    "झ"%u; "ञ"%u; "ट"%u; "ठ"%u; "ड"%u; "ढ"%u; "ण"%u; "त"%u;
    "थ"%u; "द"%u; "ध"%u; "न"%u; "प"%u; "फ"%u; "ब"%u; "भ"%u;
    "म"%u; "य"%u; "र"%u; "ल"%u; "व"%u; "श"%u; "ष"%u; "स"%u;
    "ह"%u]);
   ("SouthConsonantMap"%u, ["ल़"%u; "ष़"%u; "ऱ"%u; "ऩ"%u]);
   ("NuktaConsonantMap"%u, ["क़"%u; "ख़"%u; "ग़"%u; "ज़"%u; "ड़"%u; "ढ़"%u; "फ़"%u; "य़"%u]);
   ("SinhalaConsonantMap"%u, [[0x901; 0x2BD; 0x917]%N; [0x901; 0x2BD; 0x91C]%N; [0x901; 0x2BD; 0x921]%N; [0x901; 0x2BD; 0x926]%N; [0x901; 0x2BD; 0x92C]%N]);
   ("NuktaMap"%u, [[0x93C]%N]);
   ("OmMap"%u, ["ॐ"%u]);
   ("SignMap"%u, ["ऽ"%u; "।"%u; "॥"%u]);
   ("Aytham"%u, [[0x903; 0x2BD]%N]);
   ("NumeralMap"%u, ["०"%u; "१"%u; "२"%u; "३"%u; "४"%u; "५"%u; "६"%u; "७"%u;
    "८"%u; "९"%u])].

(** aksharamukha/ScriptMap/MainIndic/Sinhala.py:5-170 *)
Definition S_MainIndic_Sinhala : table :=
  [("VowelMap"%u, ["අ"%u; "ආ"%u; "ඉ"%u; "ඊ"%u; "උ"%u; "ඌ"%u; "ඍ"%u; "ඎ"%u;
    "ඏ"%u; "ඐ"%u; "ඒ"%u; "ඓ"%u; "ඕ"%u; "ඖ"%u]);
   ("SouthVowelMap"%u, ["එ"%u; "ඔ"%u]);
   ("ModernVowelMap"%u, ["ඇ"%u; "ආʼ"%u]);
   ("SinhalaVowelMap"%u, ["ඈ"%u]);
   ("VowelSignMap"%u, [[0xDCF]%N; [0xDD2]%N; [0xDD3]%N; [0xDD4]%N; [0xDD6]%N; [0xDD8]%N; [0xDF2]%N; [0xDDF]%N;
    [0xDF3]%N; [0xDDA]%N; [0xDDB]%N; [0xDDD]%N; [0xDDE]%N]);
   ("SouthVowelSignMap"%u, [[0xDD9]%N; [0xDDC]%N]);
   ("ModernVowelSignMap"%u, [[0xDD0]%N; [0xDCF; 0x2BC]%N]);
   ("SinhalaVowelSignMap"%u, [[0xDD1]%N]);
   ("AyogavahaMap"%u, [[0xD81]%N; [0xD82]%N; [0xD83]%N]);
   ("ViramaMap"%u, [[0xDCA]%N]);
   ("ConsonantMap"%u, ["ක"%u; "ඛ"%u; "ග"%u; "ඝ"%u; "ඞ"%u; "ච"%u; "ඡ"%u; "ජ"%u;
    "ඣ"%u; "ඤ"%u; "ට"%u; "ඨ"%u; "ඩ"%u; "ඪ"%u; "ණ"%u; "ත"%u;
    "ථ"%u; "ද"%u; "ධ"%u; "න"%u; "ප"%u; "ඵ"%u; "බ"%u; "භ"%u;
    "ම"%u; "ය"%u; "ර"%u; "ල"%u; "ව"%u; "ශ"%u; "ෂ"%u; "ස"%u;
    "හ"%u]);
   ("SouthConsonantMap"%u, ["ළ"%u; "ළ·"%u; "ර·"%u; "න·"%u]);
   ("NuktaConsonantMap"%u, ["ක·"%u; "ඛ·"%u; "ග·"%u; "ජ·"%u; "ඩ·"%u; "ඪ·"%u; "ෆ"%u; "ය·"%u]);
   ("SinhalaConsonantMap"%u, ["ඟ"%u; "ඦ"%u; "ඬ"%u; "ඳ"%u; "ඹ"%u]);
   ("NuktaMap"%u, ["·"%u]);
   ("OmMap"%u, ["ඕං"%u]);
   ("SignMap"%u, ["(අ)"%u; "."%u; ".."%u]);
   ("Aytham"%u, [[0xD83; 0x2BC]%N]);
   ("NumeralMap"%u, ["෦"%u; "෧"%u; "෨"%u; "෩"%u; "෪"%u; "෫"%u; "෬"%u; "෭"%u;
    "෮"%u; "෯"%u])].

(** aksharamukha/ScriptMap/MainIndic/SylotiNagri.py:5-171 *)
Definition S_MainIndic_SylotiNagri : table :=
  [("VowelMap"%u, ["ꠅ"%u; "ꠀ"%u; "ꠁ"%u; "ꠁʽ"%u; "ꠃ"%u; "ꠃʽ"%u; "ꠞꠤʽ"%u; "ꠞꠤʽ"%u;
    "ꠟꠤʽ"%u; "ꠟꠤʽ"%u; "ꠄ"%u; "ꠅꠂ"%u; "ꠅʽ"%u; "ꠅꠃ"%u]);
   ("SouthVowelMap"%u, ["ꠄʽ"%u; "ꠅʽ"%u]);
   ("ModernVowelMap"%u, ["ꠄʽ"%u; "ꠀʽ"%u]);
   ("SinhalaVowelMap"%u, ["ꠄʽ"%u]);
   ("VowelSignMap"%u, [[0xA823]%N; [0xA824]%N; [0xA824; 0x2BD]%N; [0xA825]%N; [0xA825; 0x2BD]%N; [0xA806; 0xA81E; 0xA824; 0x2BD]%N; [0xA806; 0xA81E; 0xA824; 0x2BD]%N; [0xA806; 0xA81F; 0xA824; 0x2BD]%N;
    [0xA806; 0xA81F; 0xA824; 0x2BD]%N; [0xA826]%N; [0xA802]%N; [0xA827]%N; "ꠃʽʽ"%u]);
   ("SouthVowelSignMap"%u, [[0xA826; 0x2BD]%N; [0xA827; 0x2BD]%N]);
   ("ModernVowelSignMap"%u, [[0xA826; 0x2BD]%N; [0xA823; 0x2BD]%N]);
   ("SinhalaVowelSignMap"%u, [[0xA826; 0x2BD]%N]);
   ("AyogavahaMap"%u, [[0xA80B; 0x2BD]%N; [0xA80B]%N; "ꠢ꠆ʽ"%u]);
   ("ViramaMap"%u, [[0xA806]%N]);
   ("ConsonantMap"%u, ["ꠇ"%u; "ꠈ"%u; "ꠉ"%u; "ꠊ"%u; "ꠘʽ"%u; "ꠌ"%u; "ꠍ"%u; "ꠎ"%u;
    "ꠏ"%u; "ꠘʽ"%u; "ꠐ"%u; "ꠑ"%u; "ꠒ"%u; "ꠓ"%u; "ꠘʽ"%u; "ꠔ"%u;
    "ꠕ"%u; "ꠖ"%u; "ꠗ"%u; "ꠘ"%u; "ꠙ"%u; "ꠚ"%u; "ꠛ"%u; "ꠜ"%u;
    "ꠝ"%u; "ꠎʽ"%u; "ꠞ"%u; "ꠟ"%u; "ꠛʽ"%u; "ꠡʽ"%u; "ꠡʽ"%u; "ꠡ"%u;
    "ꠢ"%u]);
   ("SouthConsonantMap"%u, ["ꠟʽ"%u; "ꠟʽ"%u; "ꠞʽ"%u; "ꠘʽ"%u]);
   ("NuktaConsonantMap"%u, ["ꠇʽ"%u; "ꠈʽ"%u; "ꠉʽ"%u; "ꠎʽ"%u; "ꠠ"%u; "ꠓʽ"%u; "ꠚʽ"%u; "ꠎʽ"%u]);
   ("SinhalaConsonantMap"%u, [[0xA80B; 0xA809; 0x2BD]%N; [0xA80B; 0xA80E; 0x2BD]%N; [0xA80B; 0xA812; 0x2BD]%N; [0xA80B; 0xA816; 0x2BD]%N; [0xA80B; 0xA81B; 0x2BD]%N]);
   ("NuktaMap"%u, ["ʽʽʽ"%u]);
   ("OmMap"%u, ["ꠅꠋ"%u]);
   ("SignMap"%u, ["ঽ"%u; "।"%u; "॥"%u]);
   ("Aytham"%u, ["ꠢ꠆ʽʽ"%u]);
   ("NumeralMap"%u, ["০"%u; "১"%u; "২"%u; "৩"%u; "৪"%u; "৫"%u; "৬"%u; "৭"%u;
    "৮"%u; "৯"%u])].

(** aksharamukha/ScriptMap/MainIndic/SyriacMalayalam.py:5-170 *)
Definition S_MainIndic_SyriacMalayalam : table :=
  [("VowelMap"%u, ["ܐܲ"%u; "ܐܵ"%u; "इ"%u; "ई"%u; "उ"%u; "ऊ"%u; "ऋ"%u; "ॠ"%u;
    "ऌ"%u; "ॡ"%u; "ए"%u; "ऐ"%u; "ओ"%u; "औ"%u]);
   ("SouthVowelMap"%u, ["ऎ"%u; "ऒ"%u]);
   ("ModernVowelMap"%u, ["ऍ"%u; "ऑ"%u]);
   ("SinhalaVowelMap"%u, ["एॕ"%u]);
   ("VowelSignMap"%u, [[0x93E]%N; [0x93F]%N; [0x940]%N; [0x941]%N; [0x942]%N; [0x943]%N; [0x944]%N; [0x962]%N;
    [0x963]%N; [0x947]%N; [0x948]%N; [0x94B]%N; [0x94C]%N]);
   ("SouthVowelSignMap"%u, [[0x946]%N; [0x94A]%N]);
   ("ModernVowelSignMap"%u, [[0x945]%N; [0x949]%N]);
   ("SinhalaVowelSignMap"%u, [[0x955]%N]);
   ("AyogavahaMap"%u, [[0x901]%N; [0x902]%N; [0x903]%N]);
   ("ViramaMap"%u, [[0x94D]%N]);
   ("ConsonantMap"%u, ["क"%u; "ख"%u; "ग"%u; "घ"%u; "ङ"%u; "च"%u; "छ"%u; "ज"%u;
    "झ"%u; "ञ"%u; "ट"%u; "ठ"%u; "ड"%u; "ढ"%u; "ण"%u; "त"%u;
    "थ"%u; "द"%u; "ध"%u; "न"%u; "प"%u; "फ"%u; "ब"%u; "भ"%u;
    "म"%u; "य"%u; "र"%u; "ल"%u; "व"%u; "श"%u; "ष"%u; "स"%u;
    "ह"%u]);
   ("SouthConsonantMap"%u, ["ळ"%u; "ऴ"%u; "ऱ"%u; "ऩ"%u]);
   ("NuktaConsonantMap"%u, ["क़"%u; "ख़"%u; "ग़"%u; "ज़"%u; "ड़"%u; "ढ़"%u; "फ़"%u; "य़"%u]);
   ("SinhalaConsonantMap"%u, [[0x901; 0x2C6; 0x917]%N; [0x901; 0x2C6; 0x91C]%N; [0x901; 0x2C6; 0x921]%N; [0x901; 0x2C6; 0x926]%N; [0x901; 0x2C6; 0x92C]%N]);
   ("NuktaMap"%u, [[0x93C]%N]);
   ("OmMap"%u, ["ॐ"%u]);
   ("SignMap"%u, ["ऽ"%u; "।"%u; "॥"%u]);
   ("Aytham"%u, [[0x903; 0x2BC]%N]);
   ("NumeralMap"%u, ["०"%u; "१"%u; "२"%u; "३"%u; "४"%u; "५"%u; "६"%u; "७"%u;
    "८"%u; "९"%u])].

(** aksharamukha/ScriptMap/MainIndic/Takri.py:5-171 *)
Definition S_MainIndic_Takri : table :=
  [("VowelMap"%u, ["𑚀"%u; "𑚁"%u; "𑚂"%u; "𑚃"%u; "𑚄"%u; "𑚅"%u; "𑚤𑚮ʽ"%u; "𑚤𑚯ʽ"%u;
    "𑚥𑚮ʽ"%u; "𑚥𑚯ʽ"%u; "𑚆"%u; "𑚇"%u; "𑚈"%u; "𑚉"%u]);
   ("SouthVowelMap"%u, ["𑚆"%u; "𑚈"%u]);
   ("ModernVowelMap"%u, ["𑚆ʽ"%u; "𑚁ʽ"%u]);
   ("SinhalaVowelMap"%u, ["𑚆ʽ"%u]);
   ("VowelSignMap"%u, [[0x116AD]%N; [0x116AE]%N; [0x116AF]%N; [0x116B0]%N; [0x116B1]%N; [0x116B6; 0x116A4; 0x116AE; 0x2BD]%N; [0x116B6; 0x116A4; 0x116AF; 0x2BD]%N; [0x116B6; 0x116A5; 0x116AE; 0x2BD]%N;
    [0x116B6; 0x116A5; 0x116AF; 0x2BD]%N; [0x116B2]%N; [0x116B3]%N; [0x116B4]%N; [0x116B5]%N]);
   ("SouthVowelSignMap"%u, [[0x116B3; 0x2BD]%N; [0x116B4; 0x2BD]%N]);
   ("ModernVowelSignMap"%u, [[0x116B3; 0x2BD]%N; [0x116AD; 0x2BD]%N]);
   ("SinhalaVowelSignMap"%u, [[0x116B3; 0x2BD]%N]);
   ("AyogavahaMap"%u, [[0x116AB; 0x2BD]%N; [0x116AB]%N; [0x116AC]%N]);
   ("ViramaMap"%u, [[0x116B6]%N]);
   ("ConsonantMap"%u, ["𑚊"%u; "𑚸"%u; "𑚌"%u; "𑚍"%u; "𑚎"%u; "𑚏"%u; "𑚐"%u; "𑚑"%u;
    "𑚒"%u; "𑚓"%u; "𑚔"%u; "𑚕"%u; "𑚖"%u; "𑚗"%u; "𑚘"%u; "𑚙"%u;
    "𑚚"%u; "𑚛"%u; "𑚜"%u; "𑚝"%u; "𑚞"%u; "𑚟"%u; "𑚠"%u; "𑚡"%u;
    "𑚢"%u; "𑚣"%u; "𑚤"%u; "𑚥"%u; "𑚦"%u; "𑚧"%u; "𑚋"%u; "𑚨"%u;
    "𑚩"%u]);
   ("SouthConsonantMap"%u, ["𑚥𑚷"%u; "𑚥𑚷ʽ"%u; "𑚤𑚷"%u; "𑚝𑚷"%u]);
   ("NuktaConsonantMap"%u, ["𑚊𑚷"%u; "𑚋𑚷"%u; "𑚌𑚷"%u; "𑚑𑚷"%u; "𑚪"%u; "𑚗𑚷"%u; "𑚟𑚷"%u; "𑚣𑚷"%u]);
   ("SinhalaConsonantMap"%u, [[0x116AB; 0x1168C; 0x2BD]%N; [0x116AB; 0x11691; 0x2BD]%N; [0x116AB; 0x11696; 0x2BD]%N; [0x116AB; 0x1169B; 0x2BD]%N; [0x116AB; 0x116A0; 0x2BD]%N]);
   ("NuktaMap"%u, [[0x116B7]%N]);
   ("OmMap"%u, ["𑚈𑚫"%u]);
   ("SignMap"%u, ["ऽ"%u; "।"%u; "॥"%u]);
   ("Aytham"%u, [[0x116AC; 0x2BD]%N]);
   ("NumeralMap"%u, ["𑛀"%u; "𑛁"%u; "𑛂"%u; "𑛃"%u; "𑛄"%u; "𑛅"%u; "𑛆"%u; "𑛇"%u;
    "𑛈"%u; "𑛉"%u])].

(** aksharamukha/ScriptMap/MainIndic/Tamil.py:5-170 *)
Definition S_MainIndic_Tamil : table :=
  [("VowelMap"%u, ["அ"%u; "ஆ"%u; "இ"%u; "ஈ"%u; "உ"%u; "ஊ"%u; "ருʼ"%u; "ரூʼ"%u;
    "லுʼ"%u; "லூʼ"%u; "ஏ"%u; "ஐ"%u; "ஓ"%u; "ஔ"%u]);
   ("SouthVowelMap"%u, ["எ"%u; "ஒ"%u]);
   ("ModernVowelMap"%u, ["எʼ"%u; "ஆʼ"%u]);
   ("SinhalaVowelMap"%u, ["ஏˇ"%u]);
   ("VowelSignMap"%u, [[0xBBE]%N; [0xBBF]%N; [0xBC0]%N; [0xBC1]%N; [0xBC2]%N; [0xBCD; 0xBB0; 0xBC1; 0x2BC]%N; [0xBCD; 0xBB0; 0xBC2; 0x2BC]%N; [0xBCD; 0xBB2; 0xBC1; 0x2BC]%N;
    [0xBCD; 0xBB2; 0xBC2; 0x2BC]%N; [0xBC7]%N; [0xBC8]%N; [0xBCB]%N; [0xBCC]%N]);
   ("SouthVowelSignMap"%u, [[0xBC6]%N; [0xBCA]%N]);
   ("ModernVowelSignMap"%u, [[0xBC6; 0x2BC]%N; [0xBBE; 0x2BC]%N]);
   ("SinhalaVowelSignMap"%u, [[0xBC7; 0x2C7]%N]);
   ("AyogavahaMap"%u, ["ம்ˮ"%u; "ம்ʼ"%u; "꞉"%u]);
   ("ViramaMap"%u, [[0xBCD]%N]);
   ("ConsonantMap"%u, ["க"%u; "க²"%u; "க³"%u; "க⁴"%u; "ங"%u; "ச"%u; "ச²"%u; "ஜ"%u;
    "ஜ²"%u; "ஞ"%u; "ட"%u; "ட²"%u; "ட³"%u; "ட⁴"%u; "ண"%u; "த"%u;
    "த²"%u; "த³"%u; "த⁴"%u; "ந"%u; "ப"%u; "ப²"%u; "ப³"%u; "ப⁴"%u;
    "ம"%u; "ய"%u; "ர"%u; "ல"%u; "வ"%u; "ஶ"%u; "ஷ"%u; "ஸ"%u;
    "ஹ"%u]);
   ("SouthConsonantMap"%u, ["ள"%u; "ழ"%u; "ற"%u; "ன"%u]);
   ("NuktaConsonantMap"%u, ["ஃʼக"%u; "ஃக²"%u; "ஃக³"%u; "ஃஜ"%u; "ஃட²"%u; "ஃட³"%u; "ஃப"%u; "ஃய"%u]);
   ("SinhalaConsonantMap"%u, ["ங்ˆக³"%u; "ஞ்ˆஜ³"%u; "ண்ˆட³"%u; "ந்ˆத³"%u; "ம்ˆப³"%u]);
   ("NuktaMap"%u, ["·"%u]);
   ("OmMap"%u, ["ௐ"%u]);
   ("SignMap"%u, ["(அ)"%u; "।"%u; "॥"%u]);
   ("Aytham"%u, ["ஃ"%u]);
   ("NumeralMap"%u, ["௦"%u; "௧"%u; "௨"%u; "௩"%u; "௪"%u; "௫"%u; "௬"%u; "௭"%u;
    "௮"%u; "௯"%u])].

(** aksharamukha/ScriptMap/MainIndic/TamilBrahmi.py:5-177 *)
Definition S_MainIndic_TamilBrahmi : table :=
  [("VowelMap"%u, ["𑀅"%u; "𑀆"%u; "𑀇"%u; "𑀈"%u; "𑀉"%u; "𑀊"%u; "𑀭𑀼ʽ"%u; "𑀭𑀽ʽ"%u;
    "𑀮𑀼ʽ"%u; "𑀮𑀽ʽ"%u; "𑀏"%u; "𑀐"%u; "𑀑"%u; "𑀒"%u]);
   ("SouthVowelMap"%u, ["𑀏𑁆"%u; "𑀑𑁆"%u]);
   ("ModernVowelMap"%u, ["𑀏𑁆ʽ"%u; "𑀆ʽ"%u]);
   ("SinhalaVowelMap"%u, ["𑀏ʽ"%u]);
   ("VowelSignMap"%u, [[0x11038]%N; [0x1103A]%N; [0x1103B]%N; [0x1103C]%N; [0x1103D]%N; [0x11046; 0x1102D; 0x1103C; 0x2BD]%N; [0x11046; 0x1102D; 0x1103D; 0x2BD]%N; [0x11046; 0x1102E; 0x1103C; 0x2BD]%N;
    [0x11046; 0x1102E; 0x1103D; 0x2BD]%N; [0x11042]%N; [0x11043]%N; [0x11044]%N; [0x11045]%N]);
   ("SouthVowelSignMap"%u, [[0x11042; 0x11046]%N; [0x11044; 0x11046]%N]);
   ("ModernVowelSignMap"%u, [[0x11042; 0x11046; 0x2BD]%N; [0x11038; 0x2BD]%N]);
   ("SinhalaVowelSignMap"%u, [[0x11042; 0x2BD]%N]);
   ("AyogavahaMap"%u, ["𑀫𑁆ʽ"%u; "𑀫𑁆ʽ"%u; [0x11002; 0x2BD]%N]);
   ("ViramaMap"%u, [[0x11046]%N]);
   ("ConsonantMap"%u, ["𑀓"%u; "𑀓ʽ"%u; "𑀓ʽ"%u; "𑀓ʽ"%u; "𑀗"%u; "𑀘"%u; "𑀘ʽ"%u; "𑀚"%u;
    "𑀚ʽ"%u; "𑀜"%u; "𑀝"%u; "𑀝ʽ"%u; "𑀝ʽ"%u; "𑀝ʽ"%u; "𑀡"%u; "𑀢"%u;
    "𑀢ʽ"%u; "𑀢ʽ"%u; "𑀥"%u; "𑀦"%u; "𑀧"%u; "𑀧ʽ"%u; "𑀧ʽ"%u; "𑀧ʽ"%u;
    "𑀫"%u; "𑀬"%u; "𑀭"%u; "𑀮"%u; "𑀯"%u; "𑀰"%u; "𑀱"%u; "𑀲"%u;
    "𑀳"%u]);
   ("SouthConsonantMap"%u, ["𑀴"%u; "𑀵"%u; "𑀶"%u; "𑀷"%u]);
   ("NuktaConsonantMap"%u, ["𑀓ʽ"%u; "𑀓ʽ"%u; "𑀓ʽ"%u; "𑀚ʽ"%u; "𑀝ʽ"%u; "𑀝ʽ"%u; "𑀧ʽ"%u; "𑀬ʽ"%u]);
   ("SinhalaConsonantMap"%u, ["𑀗𑁆𑀓ʽ"%u; "𑀜𑁆𑀚ʽ"%u; "𑀡𑁆𑀝ʽ"%u; "𑀦𑁆𑀢ʽ"%u; "𑀫𑁆𑀧ʽ"%u]);
   ("NuktaMap"%u, ["ʽʽʽʽ"%u]);
   ("OmMap"%u, ["𑀑𑀫𑁆"%u]);
   ("SignMap"%u, ["'"%u; "."%u; ".."%u]);
   ("Aytham"%u, [[0x11002]%N]);
   ("NumeralMap"%u, ["0"%u; "1"%u; "2"%u; "3"%u; "4"%u; "5"%u; "6"%u; "7"%u;
    "8"%u; "9"%u])].

(** aksharamukha/ScriptMap/MainIndic/TamilExtended.py:5-170 *)
Definition S_MainIndic_TamilExtended : table :=
  [("VowelMap"%u, ["അ"%u; "ആ"%u; "ഇ"%u; "ഈ"%u; "ഉ"%u; "ഊ"%u; "ഋ"%u; "ൠ"%u;
    "ഌ"%u; "ൡ"%u; "ഏ"%u; "ഐ"%u; "ഓ"%u; "ഔ"%u]);
   ("SouthVowelMap"%u, ["എ"%u; "ഒ"%u]);
   ("ModernVowelMap"%u, ["എʼ"%u; "ആʼ"%u]);
   ("SinhalaVowelMap"%u, ["ഏˇ"%u]);
   ("VowelSignMap"%u, [[0xD3E]%N; [0xD3F]%N; [0xD40]%N; [0xD41]%N; [0xD42]%N; [0xD43]%N; [0xD44]%N; [0xD62]%N;
    [0xD63]%N; [0xD47]%N; [0xD48]%N; [0xD4B]%N; [0xD57]%N]);
   ("SouthVowelSignMap"%u, [[0xD46]%N; [0xD4A]%N]);
   ("ModernVowelSignMap"%u, [[0xD46; 0x2BC]%N; [0xD3E; 0x2BC]%N]);
   ("SinhalaVowelSignMap"%u, [[0xD47; 0x2C7]%N]);
   ("AyogavahaMap"%u, [[0xD01]%N; [0xD02]%N; [0xD03]%N]);
   ("ViramaMap"%u, [[0xD4D; 0x200C]%N]);
   ("ConsonantMap"%u, ["ക"%u; "ഖ"%u; "ഗ"%u; "ഘ"%u; "ങ"%u; "ച"%u; "ഛ"%u; "ജ"%u;
    "ഝ"%u; "ഞ"%u; "ട"%u; "ഠ"%u; "ഡ"%u; "ഢ"%u; "ണ"%u; "ത"%u;
    "ഥ"%u; "ദ"%u; "ധ"%u; "ന"%u; "പ"%u; "ഫ"%u; "ബ"%u; "ഭ"%u;
    "മ"%u; "യ"%u; "ര"%u; "ല"%u; "വ"%u; "ശ"%u; "ഷ"%u; "സ"%u;
    "ഹ"%u]);
   ("SouthConsonantMap"%u, ["ള"%u; "ഴ"%u; "റ"%u; "ഩ"%u]);
   ("NuktaConsonantMap"%u, ["ക·"%u; "ഖ·"%u; "ഗ·"%u; "ജ·"%u; "ഡ·"%u; "ഢ·"%u; "ഫ·"%u; "യ·"%u]);
   ("SinhalaConsonantMap"%u, [[0xD02; 0x2C6; 0xD17]%N; [0xD02; 0x2C6; 0xD1C]%N; [0xD02; 0x2C6; 0xD21]%N; [0xD02; 0x2C6; 0xD26]%N; [0xD02; 0x2C6; 0xD2C]%N]);
   ("NuktaMap"%u, ["·"%u]);
   ("OmMap"%u, ["ௐ"%u]);
   ("SignMap"%u, ["ഽ"%u; "."%u; ".."%u]);
   ("Aytham"%u, ["ஃ"%u]);
   ("NumeralMap"%u, ["0"%u; "1"%u; "2"%u; "3"%u; "4"%u; "5"%u; "6"%u; "7"%u;
    "8"%u; "9"%u])].

(** aksharamukha/ScriptMap/MainIndic/TamilGrantha.py:5-170 *)
Definition S_MainIndic_TamilGrantha : table :=
  [("VowelMap"%u, ["அ"%u; "ஆ"%u; "இ"%u; "ஈ"%u; "உ"%u; "ஊ"%u; "ঋ"%u; "ৠ"%u;
    "ঌ"%u; "ৡ"%u; "ஏ"%u; "ஐ"%u; "ஓ"%u; "ஔ"%u]);
   ("SouthVowelMap"%u, ["எ"%u; "ஒ"%u]);
   ("ModernVowelMap"%u, ["எʼ"%u; "ஆʼ"%u]);
   ("SinhalaVowelMap"%u, ["ஏˇ"%u]);
   ("VowelSignMap"%u, [[0xBBE]%N; [0xBBF]%N; [0xBC0]%N; [0xBC1]%N; [0xBC2]%N; [0x9C3]%N; [0x9C4]%N; [0x9E2]%N;
    [0x9E3]%N; [0xBC7]%N; [0xBC8]%N; [0xBCB]%N; [0xBCC]%N]);
   ("SouthVowelSignMap"%u, [[0xBC6]%N; [0xBCA]%N]);
   ("ModernVowelSignMap"%u, [[0xBC6; 0x2BC]%N; [0xBBE; 0x2BC]%N]);
   ("SinhalaVowelSignMap"%u, [[0xBC7; 0x2C7]%N]);
   ("AyogavahaMap"%u, [[0x981]%N; [0x982]%N; [0x983]%N]);
   ("ViramaMap"%u, [[0xBCD]%N]);
   ("ConsonantMap"%u, ["க"%u; "খ"%u; "গ"%u; "ঘ"%u; "ங"%u; "ச"%u; "ছ"%u; "ஜ"%u;
    "ঝ"%u; "ஞ"%u; "ட"%u; "ঠ"%u; "ড"%u; "ঢ"%u; "ண"%u; "த"%u;
    "থ"%u; "দ"%u; "ধ"%u; "ந"%u; "ப"%u; "ফ"%u; "ব"%u; "ভ"%u;
    "ம"%u; "ய"%u; "ர"%u; "ல"%u; "வ"%u; "ஶ"%u; "ஷ"%u; "ஸ"%u;
    "ஹ"%u]);
   ("SouthConsonantMap"%u, ["ள"%u; "ழ"%u; "ற"%u; "ன"%u]);
   ("NuktaConsonantMap"%u, ["க়"%u; "খ়"%u; "গ়"%u; "ஜ়"%u; "ড়"%u; "ঢ়"%u; "ফ়"%u; "ய়"%u]);
   ("SinhalaConsonantMap"%u, ["ங்ˆগ"%u; "ஞ்ˆஜ"%u; "ண்ˆড"%u; "ந்ˆদ"%u; "ம்ˆব"%u]);
   ("NuktaMap"%u, [[0x9BC]%N]);
   ("OmMap"%u, ["ௐ"%u]);
   ("SignMap"%u, ["ঽ"%u; "।"%u; "॥"%u]);
   ("Aytham"%u, [[0x983; 0x2BC]%N]);
   ("NumeralMap"%u, ["০"%u; "১"%u; "২"%u; "৩"%u; "৪"%u; "৫"%u; "৬"%u; "৭"%u;
    "৮"%u; "৯"%u])].

(** aksharamukha/ScriptMap/MainIndic/Telugu.py:5-171 *)
Definition S_MainIndic_Telugu : table :=
  [("VowelMap"%u, ["అ"%u; "ఆ"%u; "ఇ"%u; "ఈ"%u; "ఉ"%u; "ఊ"%u; "ఋ"%u; "ౠ"%u;
    "ఌ"%u; "ౡ"%u; "ఏ"%u; "ఐ"%u; "ఓ"%u; "ఔ"%u]);
   ("SouthVowelMap"%u, ["ఎ"%u; "ఒ"%u]);
   ("ModernVowelMap"%u, [[0xC0E; 0x952; 0x200B]%N; [0xC12; 0x952; 0x200B]%N]);
   ("SinhalaVowelMap"%u, [[0xC0F; 0x952; 0x200B]%N]);
   ("VowelSignMap"%u, [[0xC3E]%N; [0xC3F]%N; [0xC40]%N; [0xC41]%N; [0xC42]%N; [0xC43]%N; [0xC44]%N; [0xC62]%N;
    [0xC63]%N; [0xC47]%N; [0xC48]%N; [0xC4B]%N; [0xC4C]%N]);
   ("SouthVowelSignMap"%u, [[0xC46]%N; [0xC4A]%N]);
   ("ModernVowelSignMap"%u, [[0xC46; 0x952; 0x200B]%N; [0xC4A; 0x952; 0x200B]%N]);
   ("SinhalaVowelSignMap"%u, [[0xC47; 0x952; 0x200B]%N]);
   ("AyogavahaMap"%u, [[0xC00]%N; [0xC02]%N; [0xC03]%N]);
   ("ViramaMap"%u, [[0xC4D]%N]);
   ("ConsonantMap"%u, ["క"%u; "ఖ"%u; "గ"%u; "ఘ"%u; "ఙ"%u; "చ"%u; "ఛ"%u; "జ"%u;
    "ఝ"%u; "ఞ"%u; "ట"%u; "ఠ"%u; "డ"%u; "ఢ"%u; "ణ"%u; "త"%u;
    "థ"%u; "ద"%u; "ధ"%u; "న"%u; "ప"%u; "ఫ"%u; "బ"%u; "భ"%u;
    "మ"%u; "య"%u; "ర"%u; "ల"%u; "వ"%u; "శ"%u; "ష"%u; "స"%u;
    "హ"%u]);
   ("SouthConsonantMap"%u, ["ళ"%u; "ఴ"%u; "ఱ"%u; "న఼"%u]);
   ("NuktaConsonantMap"%u, ["క఼"%u; "ఖ఼"%u; "గ఼"%u; "జ఼"%u; "డ఼"%u; "ఢ఼"%u; "ఫ఼"%u; "య఼"%u]);
   ("SinhalaConsonantMap"%u, [[0xC01; 0x2C6; 0xC17]%N; [0xC01; 0x2C6; 0xC1C]%N; [0xC01; 0x2C6; 0xC21]%N; [0xC01; 0x2C6; 0xC26]%N; [0xC01; 0x2C6; 0xC2C]%N]);
   ("NuktaMap"%u, [[0xC3C]%N]);
   ("OmMap"%u, ["ఓం"%u]);
   ("SignMap"%u, ["ఽ"%u; "।"%u; "॥"%u]);
   ("Aytham"%u, [[0xC03; 0x2BC]%N]);
   ("NumeralMap"%u, ["౦"%u; "౧"%u; "౨"%u; "౩"%u; "౪"%u; "౫"%u; "౬"%u; "౭"%u;
    "౮"%u; "౯"%u])].

(** aksharamukha/ScriptMap/MainIndic/Tirhuta.py:5-171 *)
Definition S_MainIndic_Tirhuta : table :=
  [("VowelMap"%u, ["𑒁"%u; "𑒂"%u; "𑒃"%u; "𑒄"%u; "𑒅"%u; "𑒆"%u; "𑒇"%u; "𑒈"%u;
    "𑒉"%u; "𑒊"%u; "𑒋"%u; "𑒌"%u; "𑒍"%u; "𑒎"%u]);
   ("SouthVowelMap"%u, ["𑒁𑒺"%u; "𑒁𑒽"%u]);
   ("ModernVowelMap"%u, ["𑒋ʽ"%u; "𑒂ʽ"%u]);
   ("SinhalaVowelMap"%u, ["𑒋ʽ"%u]);
   ("VowelSignMap"%u, [[0x114B0]%N; [0x114B1]%N; [0x114B2]%N; [0x114B3]%N; [0x114B4]%N; [0x114B5]%N; [0x114B6]%N; [0x114B7]%N;
    [0x114B8]%N; [0x114B9]%N; [0x114BB]%N; [0x114BC]%N; [0x114BE]%N]);
   ("SouthVowelSignMap"%u, [[0x114BA]%N; [0x114BD]%N]);
   ("ModernVowelSignMap"%u, [[0x114B9; 0x2BD]%N; [0x114B0; 0x2BD]%N]);
   ("SinhalaVowelSignMap"%u, [[0x114B9; 0x2BD]%N]);
   ("AyogavahaMap"%u, [[0x114BF]%N; [0x114C0]%N; [0x114C1]%N]);
   ("ViramaMap"%u, [[0x114C2]%N]);
   ("ConsonantMap"%u, ["𑒏"%u; "𑒐"%u; "𑒑"%u; "𑒒"%u; "𑒓"%u; "𑒔"%u; "𑒕"%u; "𑒖"%u;
    "𑒗"%u; "𑒘"%u; "𑒙"%u; "𑒚"%u; "𑒛"%u; "𑒜"%u; "𑒝"%u; "𑒞"%u;
    "𑒟"%u; "𑒠"%u; "𑒡"%u; "𑒢"%u; "𑒣"%u; "𑒤"%u; "𑒥"%u; "𑒦"%u;
    "𑒧"%u; "𑒨"%u; "𑒩"%u; "𑒪"%u; "𑒫"%u; "𑒬"%u; "𑒭"%u; "𑒮"%u;
    "𑒯"%u]);
   ("SouthConsonantMap"%u, ["𑒝𑓃"%u; "𑒭𑓃"%u; "𑒩ʽ"%u; "𑒪𑓃"%u]);
   ("NuktaConsonantMap"%u, ["𑒏𑓃"%u; "𑒐𑓃"%u; "𑒑𑓃"%u; "𑒖𑓃"%u; "𑒛𑓃"%u; "𑒜𑓃"%u; "𑒤𑓃"%u; "𑒨𑓃"%u]);
   ("SinhalaConsonantMap"%u, [[0x114BF; 0x11491; 0x2BD]%N; [0x114BF; 0x11496; 0x2BD]%N; [0x114BF; 0x1149B; 0x2BD]%N; [0x114BF; 0x114A0; 0x2BD]%N; [0x114BF; 0x114A5; 0x2BD]%N]);
   ("NuktaMap"%u, [[0x114C3]%N]);
   ("OmMap"%u, ["𑓇"%u]);
   ("SignMap"%u, ["𑓄"%u; "।"%u; "॥"%u]);
   ("Aytham"%u, [[0x114C1; 0x2BD]%N]);
   ("NumeralMap"%u, ["𑓐"%u; "𑓑"%u; "𑓒"%u; "𑓓"%u; "𑓔"%u; "𑓕"%u; "𑓖"%u; "𑓗"%u;
    "𑓘"%u; "𑓙"%u])].

(** aksharamukha/ScriptMap/MainIndic/Urdu.py:5-172 *)
Definition S_MainIndic_Urdu : table :=
  [("VowelMap"%u, ["اَ"%u; "آ"%u; "اِ"%u; "اِی"%u; "اُ"%u; "اُو"%u; "رِʽ"%u; "رِیʽ"%u;
    "لِʽ"%u; "لِیʽ"%u; "ای"%u; "اََی"%u; "او"%u; "اََو"%u]);
   ("SouthVowelMap"%u, ["ایʽ"%u; "اوʽ"%u]);
   ("ModernVowelMap"%u, ["ایʽ"%u; "آʽ"%u]);
   ("SinhalaVowelMap"%u, ["اےʽ"%u]);
   ("VowelSignMap"%u, ["ا"%u; [0x650]%N; [0x650; 0x6CC]%N; [0x64F]%N; [0x64F; 0x648]%N; [0x652; 0x631; 0x650; 0x2BD]%N; [0x652; 0x631; 0x650; 0x6CC; 0x2BD]%N; [0x652; 0x644; 0x650; 0x2BD]%N;
    [0x652; 0x644; 0x650; 0x6CC; 0x2BD]%N; "ی"%u; [0x64E; 0x64E; 0x6CC]%N; "و"%u; [0x64E; 0x64E; 0x648]%N]);
   ("SouthVowelSignMap"%u, ["یʽ"%u; "وʽ"%u]);
   ("ModernVowelSignMap"%u, ["یʽ"%u; "اʽ"%u]);
   ("SinhalaVowelSignMap"%u, ["یʽ"%u]);
   ("AyogavahaMap"%u, ["ںʽ"%u; "ں"%u; "ہ"%u]);
   ("ViramaMap"%u, [[0x652]%N]);
   ("ConsonantMap"%u, ["کَ"%u; "کھَ"%u; "گَ"%u; "گھَ"%u; "نʽَ"%u; "چَ"%u; "چھَ"%u; "جَ"%u;
    "جھَ"%u; "نʽَ"%u; "ٹَ"%u; "ٹھَ"%u; "ڈَ"%u; "ڈھَ"%u; "نʽَ"%u; "تَ"%u;
    "تھَ"%u; "دَ"%u; "دھَ"%u; "نَ"%u; "پَ"%u; "پھَ"%u; "بَ"%u; "بھَ"%u;
    "مَ"%u; "یَ"%u; "رَ"%u; "لَ"%u; "وَ"%u; "شَ"%u; "شَʽ"%u; "سَ"%u;
    "ہَ"%u]);
   ("SouthConsonantMap"%u, ["لʽَ"%u; "لʽَ"%u; "رʽَ"%u; "نʽَ"%u]);
   ("NuktaConsonantMap"%u, ["قَ"%u; "خَ"%u; "غَ"%u; "زَ"%u; "ڑَ"%u; "ڑھَ"%u; "فَ"%u; "یَʽ"%u]);
   ("SinhalaConsonantMap"%u, ["ںگʽَ"%u; "ںجʽَ"%u; "ںڈʽَ"%u; "ںدʽَ"%u; "ںبʽَ"%u]);
   ("NuktaMap"%u, ["ʽʽʽʽ"%u]);
   ("OmMap"%u, ["اومْ"%u]);
   ("SignMap"%u, ["ʽʽ"%u; "۔"%u; "۔۔"%u]);
   ("Aytham"%u, ["ہʽ"%u]);
   ("NumeralMap"%u, ["۰"%u; "۱"%u; "۲"%u; "۳"%u; "۴"%u; "۵"%u; "۶"%u; "۷"%u;
    "۸"%u; "۹"%u])].

(** aksharamukha/ScriptMap/MainIndic/Vatteluttu.py:5-170 *)
Definition S_MainIndic_Vatteluttu : table :=
  [("VowelMap"%u, ["அ"%u; "ஆ"%u; "இ"%u; "ஈ"%u; "உ"%u; "ஊ"%u; "ருʽ"%u; "ரூʽ"%u;
    "லுʽ"%u; "லூʽ"%u; "ஏ"%u; "ஐ"%u; "ஓ"%u; "ஔ"%u]);
   ("SouthVowelMap"%u, ["எ"%u; "ஒ"%u]);
   ("ModernVowelMap"%u, ["எʽ"%u; "ஆʽ"%u]);
   ("SinhalaVowelMap"%u, ["ஏʽ"%u]);
   ("VowelSignMap"%u, [[0xBBE]%N; [0xBBF]%N; [0xBC0]%N; [0xBC1]%N; [0xBC2]%N; [0xBCD; 0xBB0; 0xBC1; 0x2BD]%N; [0xBCD; 0xBB0; 0xBC2; 0x2BD]%N; [0xBCD; 0xBB2; 0xBC1; 0x2BD]%N;
    [0xBCD; 0xBB2; 0xBC2; 0x2BD]%N; [0xBC7]%N; [0xBC8]%N; [0xBCB]%N; [0xBCC]%N]);
   ("SouthVowelSignMap"%u, [[0xBC6]%N; [0xBCA]%N]);
   ("ModernVowelSignMap"%u, [[0xBC6; 0x2BD]%N; [0xBBE; 0x2BD]%N]);
   ("SinhalaVowelSignMap"%u, [[0xBC7; 0x2BD]%N]);
   ("AyogavahaMap"%u, ["ம்ʽ"%u; "ம்ʽ"%u; "꞉"%u]);
   ("ViramaMap"%u, [[0xBCD]%N]);
   ("ConsonantMap"%u, ["க"%u; "கʽ"%u; "கʽ"%u; "கʽ"%u; "ங"%u; "ச"%u; "சʽ"%u; "சʽ"%u;
    "சʽ"%u; "ஞ"%u; "ட"%u; "டʽ"%u; "டʽ"%u; "டʽ"%u; "ண"%u; "த"%u;
    "தʽ"%u; "தʽ"%u; "தʽ"%u; "ந"%u; "ப"%u; "பʽ"%u; "பʽ"%u; "பʽ"%u;
    "ம"%u; "ய"%u; "ர"%u; "ல"%u; "வ"%u; "சʽ"%u; "சʽ"%u; "சʽ"%u;
    "கʽ"%u]);
   ("SouthConsonantMap"%u, ["ள"%u; "ழ"%u; "ற"%u; "ன"%u]);
   ("NuktaConsonantMap"%u, ["ʽக"%u; "ʽக"%u; "ʽக"%u; "ʽச"%u; "ʽட"%u; "ʽட"%u; "ʽப"%u; "ʽய"%u]);
   ("SinhalaConsonantMap"%u, ["ங்ʽக"%u; "ஞ்ʽச"%u; "ண்ʽட"%u; "ந்ʽத"%u; "ம்ʽப"%u]);
   ("NuktaMap"%u, ["ʽʽ"%u]);
   ("OmMap"%u, ["ஓம்"%u]);
   ("SignMap"%u, ["ʽʽ"%u; "."%u; ".."%u]);
   ("Aytham"%u, ["ஃ"%u]);
   ("NumeralMap"%u, ["0"%u; "1"%u; "2"%u; "3"%u; "4"%u; "5"%u; "6"%u; "7"%u;
    "8"%u; "9"%u])].

(** aksharamukha/ScriptMap/EastIndic/Balinese.py:5-175 *)
Definition S_EastIndic_Balinese : table :=
  [("VowelMap"%u, ["ᬅ"%u; "ᬆ"%u; "ᬇ"%u; "ᬈ"%u; "ᬉ"%u; "ᬊ"%u; "ᬋ"%u; "ᬌ"%u;
    "ᬍ"%u; "ᬎ"%u; "ᬏ"%u; "ᬐ"%u; "ᬑ"%u; "ᬒ"%u]);
   ("SouthVowelMap"%u, ["ᬏʽ"%u; "ᬑʽ"%u]);
   ("ModernVowelMap"%u, ["ᬅᭂ"%u; "ᬆʽ"%u]);
   ("SinhalaVowelMap"%u, ["ᬅᭃ"%u]);
   ("VowelSignMap"%u, [[0x1B35]%N; [0x1B36]%N; [0x1B37]%N; [0x1B38]%N; [0x1B39]%N; [0x1B3A]%N; [0x1B3B]%N; [0x1B3C]%N;
    [0x1B3D]%N; [0x1B3E]%N; [0x1B3F]%N; [0x1B40]%N; [0x1B41]%N]);
   ("SouthVowelSignMap"%u, [[0x1B3E; 0x2BD]%N; [0x1B40; 0x2BD]%N]);
   ("ModernVowelSignMap"%u, [[0x1B42]%N; [0x1B35; 0x2BD]%N]);
   ("SinhalaVowelSignMap"%u, [[0x1B43]%N]);
   ("AyogavahaMap"%u, [[0x1B01]%N; [0x1B02]%N; [0x1B04]%N]);
   ("ViramaMap"%u, [[0x1B44]%N]);
   ("ConsonantMap"%u, ["ᬓ"%u; "ᬔ"%u; "ᬕ"%u; "ᬖ"%u; "ᬗ"%u; "ᬘ"%u; "ᬙ"%u; "ᬚ"%u;
    "ᬛ"%u; "ᬜ"%u; "ᬝ"%u; "ᬞ"%u; "ᬟ"%u; "ᬠ"%u; "ᬡ"%u; "ᬢ"%u;
    "ᬣ"%u; "ᬤ"%u; "ᬥ"%u; "ᬦ"%u; "ᬧ"%u; "ᬨ"%u; "ᬩ"%u; "ᬪ"%u;
    "ᬫ"%u; "ᬬ"%u; "ᬭ"%u; "ᬮ"%u; "ᬯ"%u; "ᬰ"%u; "ᬱ"%u; "ᬲ"%u;
    "ᬳ"%u]);
   ("SouthConsonantMap"%u, ["ᬮ᬴"%u; "ᬱ᬴"%u; "ᬭ᬴"%u; "ᬦ᬴"%u]);
   ("NuktaConsonantMap"%u, ["ᬓ᬴"%u; "ᬔ᬴"%u; "ᬕ᬴"%u; "ᬚ᬴"%u; "ᬟ᬴"%u; "ᬠ᬴"%u; "ᬧ᬴"%u; "ᬬ᬴"%u]);
   ("SinhalaConsonantMap"%u, [[0x1B01; 0x1B15; 0x2BD]%N; [0x1B01; 0x1B1A; 0x2BD]%N; [0x1B01; 0x1B1F; 0x2BD]%N; [0x1B01; 0x1B24; 0x2BD]%N; [0x1B01; 0x1B29; 0x2BD]%N]);
   ("NuktaMap"%u, [[0x1B34]%N]);
   ("OmMap"%u, ["ᬒᬁ"%u]);
   ("SignMap"%u, ["'"%u; "᭞"%u; "᭟"%u]);
   ("Aytham"%u, [[0x1B04; 0x2BD]%N]);
   ("NumeralMap"%u, ["᭐"%u; "᭑"%u; "᭒"%u; "᭓"%u; "᭔"%u; "᭕"%u; "᭖"%u; "᭗"%u;
    "᭘"%u; "᭙"%u])].

(** aksharamukha/ScriptMap/EastIndic/BatakKaro.py:5-171 *)
Definition S_EastIndic_BatakKaro : table :=
  [("VowelMap"%u, ["ᯀ"%u; "ᯀʽ"%u; "ᯤ"%u; "ᯤʽ"%u; "ᯥ"%u; "ᯥʽ"%u; "ᯒᯬʽ"%u; "ᯒᯬʽ"%u;
    "ᯞᯬʽ"%u; "ᯞᯬʽ"%u; "ᯤʽ"%u; "ᯀᯤʽ"%u; "ᯥʽ"%u; "ᯀᯥʽ"%u]);
   ("SouthVowelMap"%u, ["ᯤʽ"%u; "ᯥʽ"%u]);
   ("ModernVowelMap"%u, ["ᯤʽ"%u; "ᯀʽ"%u]);
   ("SinhalaVowelMap"%u, ["ᯤʽ"%u]);
   ("VowelSignMap"%u, ["ʽ"%u; [0x1BEB]%N; [0x1BEB; 0x2BD]%N; [0x1BEC]%N; [0x1BEC; 0x2BD]%N; "ᯒᯬʽ"%u; "ᯒᯬʽ"%u; "ᯞᯬʽ"%u;
    "ᯞᯬʽ"%u; [0x1BE9; 0x2BD]%N; "ᯤʽ"%u; [0x1BED; 0x2BD]%N; "ᯥʽ"%u]);
   ("SouthVowelSignMap"%u, [[0x1BE9]%N; [0x1BED]%N]);
   ("ModernVowelSignMap"%u, [[0x1BE7]%N; "ʽ"%u]);
   ("SinhalaVowelSignMap"%u, [[0x1BE9; 0x2BD]%N]);
   ("AyogavahaMap"%u, [[0x1BF0; 0x2BD]%N; [0x1BF0]%N; [0x1BF1]%N]);
   ("ViramaMap"%u, [[0x1BF3]%N]);
   ("ConsonantMap"%u, ["ᯂ"%u; "ᯂʽ"%u; "ᯎ"%u; "ᯎʽ"%u; "ᯝ"%u; "ᯡ"%u; "ᯡʽ"%u; "ᯐ"%u;
    "ᯐʽ"%u; "ᯉʽ"%u; "ᯗʽ"%u; "ᯗʽ"%u; "ᯑʽ"%u; "ᯑʽ"%u; "ᯉʽ"%u; "ᯗ"%u;
    "ᯗʽ"%u; "ᯑ"%u; "ᯑʽ"%u; "ᯉ"%u; "ᯇ"%u; "ᯇʽ"%u; "ᯆ"%u; "ᯆʽ"%u;
    "ᯔ"%u; "ᯛ"%u; "ᯒ"%u; "ᯞ"%u; "ᯋ"%u; "ᯘʽ"%u; "ᯘʽ"%u; "ᯘ"%u;
    "ᯀʽ"%u]);
   ("SouthConsonantMap"%u, ["ᯞʽ"%u; "ᯞʽ"%u; "ᯒʽ"%u; "ᯉʽ"%u]);
   ("NuktaConsonantMap"%u, ["ᯂʽ"%u; "ᯂʽ"%u; "ᯎʽ"%u; "ᯐʽ"%u; "ᯑʽ"%u; "ᯑʽ"%u; "ᯇʽ"%u; "ᯛʽ"%u]);
   ("SinhalaConsonantMap"%u, [[0x1BF0; 0x1BCE; 0x2BD]%N; [0x1BF0; 0x1BD0; 0x2BD]%N; "ᯢʽ"%u; "ᯢ"%u; "ᯣ"%u]);
   ("NuktaMap"%u, ["ʽʽʽʽ"%u]);
   ("OmMap"%u, ["ᯥᯔ᯳ʽ"%u]);
   ("SignMap"%u, ["'"%u; "."%u; "."%u]);
   ("Aytham"%u, [[0x1BF1; 0x2BC]%N]);
   ("NumeralMap"%u, ["0"%u; "1"%u; "2"%u; "3"%u; "4"%u; "5"%u; "6"%u; "7"%u;
    "8"%u; "9"%u])].

(** aksharamukha/ScriptMap/EastIndic/BatakManda.py:5-171 *)
Definition S_EastIndic_BatakManda : table :=
  [("VowelMap"%u, ["ᯀ"%u; "ᯀʽ"%u; "ᯤ"%u; "ᯤʽ"%u; "ᯥ"%u; "ᯥʽ"%u; "ᯒᯮʽ"%u; "ᯒᯮʽ"%u;
    "ᯞᯮʽ"%u; "ᯞᯮʽ"%u; "ᯤʽ"%u; "ᯀᯤʽ"%u; "ᯥʽ"%u; "ᯀᯥʽ"%u]);
   ("SouthVowelMap"%u, ["ᯤʽ"%u; "ᯥʽ"%u]);
   ("ModernVowelMap"%u, ["ᯤʽ"%u; "ᯀʽ"%u]);
   ("SinhalaVowelMap"%u, ["ᯤʽ"%u]);
   ("VowelSignMap"%u, ["ʽʽ"%u; [0x1BEA]%N; [0x1BEA; 0x2BD]%N; [0x1BEE]%N; [0x1BEE; 0x2BD]%N; "ᯒᯮʽ"%u; "ᯒᯮʽ"%u; "ᯞᯮʽ"%u;
    "ᯞᯮʽ"%u; [0x1BE9; 0x2BD]%N; "ᯤʽ"%u; [0x1BEC; 0x2BD]%N; "ᯥʽ"%u]);
   ("SouthVowelSignMap"%u, [[0x1BE9]%N; [0x1BEC]%N]);
   ("ModernVowelSignMap"%u, [[0x1BE9; 0x2BD]%N; "ʽʽ"%u]);
   ("SinhalaVowelSignMap"%u, [[0x1BE9; 0x2BD]%N]);
   ("AyogavahaMap"%u, [[0x1BF0; 0x2BD]%N; [0x1BF0]%N; "ᯄ᯲ʽ"%u]);
   ("ViramaMap"%u, [[0x1BF2]%N]);
   ("ConsonantMap"%u, ["ᯄ᯦"%u; "ᯄ᯦ʽ"%u; "ᯎ"%u; "ᯎʽ"%u; "ᯝ"%u; "ᯚ᯦"%u; "ᯚ᯦ʽ"%u; "ᯐ"%u;
    "ᯐʽ"%u; "ᯠ"%u; "ᯖʽ"%u; "ᯖʽ"%u; "ᯑʽ"%u; "ᯑʽ"%u; "ᯊʽ"%u; "ᯖ"%u;
    "ᯖʽ"%u; "ᯑ"%u; "ᯑʽ"%u; "ᯊ"%u; "ᯇ"%u; "ᯇʽ"%u; "ᯅ"%u; "ᯅʽ"%u;
    "ᯔ"%u; "ᯛ"%u; "ᯒ"%u; "ᯞ"%u; "ᯍ"%u; "ᯚʽ"%u; "ᯚʽ"%u; "ᯚ"%u;
    "ᯄ"%u]);
   ("SouthConsonantMap"%u, ["ᯞʽ"%u; "ᯞʽ"%u; "ᯒʽ"%u; "ᯊʽ"%u]);
   ("NuktaConsonantMap"%u, ["ᯄ᯦ʽ"%u; "ᯄ᯦ʽ"%u; "ᯎʽ"%u; "ᯐʽ"%u; "ᯑʽ"%u; "ᯑʽ"%u; "ᯇʽ"%u; "ᯛʽ"%u]);
   ("SinhalaConsonantMap"%u, [[0x1BF0; 0x1BCE; 0x2BD]%N; [0x1BF0; 0x1BD0; 0x2BD]%N; [0x1BF0; 0x1BD1; 0x2BD]%N; [0x1BF0; 0x1BD1; 0x2BD]%N; [0x1BF0; 0x1BC5; 0x2BD]%N]);
   ("NuktaMap"%u, ["ʽʽʽʽ"%u]);
   ("OmMap"%u, ["ᯥᯔ᯲ʽ"%u]);
   ("SignMap"%u, ["'"%u; "."%u; "."%u]);
   ("Aytham"%u, ["ᯄ᯲ʽʼ"%u]);
   ("NumeralMap"%u, ["0"%u; "1"%u; "2"%u; "3"%u; "4"%u; "5"%u; "6"%u; "7"%u;
    "8"%u; "9"%u])].

(** aksharamukha/ScriptMap/EastIndic/BatakPakpak.py:5-171 *)
Definition S_EastIndic_BatakPakpak : table :=
  [("VowelMap"%u, ["ᯀ"%u; "ᯀʽ"%u; "ᯤ"%u; "ᯤʽ"%u; "ᯥ"%u; "ᯥʽ"%u; "ᯒᯮʽ"%u; "ᯒᯮʽ"%u;
    "ᯞᯮʽ"%u; "ᯞᯮʽ"%u; "ᯤʽ"%u; "ᯀᯤʽ"%u; "ᯥʽ"%u; "ᯀᯥʽ"%u]);
   ("SouthVowelMap"%u, ["ᯤʽ"%u; "ᯥʽ"%u]);
   ("ModernVowelMap"%u, ["ᯤʽ"%u; "ᯀʽ"%u]);
   ("SinhalaVowelMap"%u, ["ᯤʽ"%u]);
   ("VowelSignMap"%u, ["ʽʽ"%u; [0x1BEA]%N; [0x1BEA; 0x2BD]%N; [0x1BEE]%N; [0x1BEE; 0x2BD]%N; "ᯒᯮʽ"%u; "ᯒᯮʽ"%u; "ᯞᯮʽ"%u;
    "ᯞᯮʽ"%u; [0x1BE8; 0x2BD]%N; "ᯤʽ"%u; [0x1BEC; 0x2BD]%N; "ᯥʽ"%u]);
   ("SouthVowelSignMap"%u, [[0x1BE8]%N; [0x1BEC]%N]);
   ("ModernVowelSignMap"%u, [[0x1BE7]%N; "ʽʽ"%u]);
   ("SinhalaVowelSignMap"%u, [[0x1BE9; 0x2BD]%N]);
   ("AyogavahaMap"%u, [[0x1BF0; 0x2BD]%N; [0x1BF0]%N; [0x1BF1]%N]);
   ("ViramaMap"%u, [[0x1BF2]%N]);
   ("ConsonantMap"%u, ["ᯂ"%u; "ᯂʽ"%u; "ᯎ"%u; "ᯎʽ"%u; "ᯝ"%u; "ᯘʽ"%u; "ᯘʽ"%u; "ᯐ"%u;
    "ᯐʽ"%u; "ᯉʽ"%u; "ᯗʽ"%u; "ᯗʽ"%u; "ᯑʽ"%u; "ᯑʽ"%u; "ᯉʽ"%u; "ᯗ"%u;
    "ᯗʽ"%u; "ᯑ"%u; "ᯑʽ"%u; "ᯉ"%u; "ᯇ"%u; "ᯇʽ"%u; "ᯅ"%u; "ᯅʽ"%u;
    "ᯔ"%u; "ᯛ"%u; "ᯒ"%u; "ᯞ"%u; "ᯍ"%u; "ᯘʽ"%u; "ᯘʽ"%u; "ᯘ"%u;
    "ᯀʽ"%u]);
   ("SouthConsonantMap"%u, ["ᯞʽ"%u; "ᯞʽ"%u; "ᯒʽ"%u; "ᯉʽ"%u]);
   ("NuktaConsonantMap"%u, ["ᯂʽ"%u; "ᯂʽ"%u; "ᯎʽ"%u; "ᯐʽ"%u; "ᯑʽ"%u; "ᯑʽ"%u; "ᯇʽ"%u; "ᯛʽ"%u]);
   ("SinhalaConsonantMap"%u, [[0x1BF0; 0x1BCE; 0x2BD]%N; [0x1BF0; 0x1BD0; 0x2BD]%N; [0x1BF0; 0x1BD1; 0x2BD]%N; [0x1BF0; 0x1BD1; 0x2BD]%N; [0x1BF0; 0x1BC5; 0x2BD]%N]);
   ("NuktaMap"%u, ["ʽʽʽʽ"%u]);
   ("OmMap"%u, ["ᯥᯔ᯲ʽ"%u]);
   ("SignMap"%u, ["'"%u; "."%u; "."%u]);
   ("Aytham"%u, [[0x1BF1; 0x2BC]%N]);
   ("NumeralMap"%u, ["0"%u; "1"%u; "2"%u; "3"%u; "4"%u; "5"%u; "6"%u; "7"%u;
    "8"%u; "9"%u])].

(** aksharamukha/ScriptMap/EastIndic/BatakSima.py:5-171 *)
Definition S_EastIndic_BatakSima : table :=
  [("VowelMap"%u, ["ᯁ"%u; "ᯁʽ"%u; "ᯤ"%u; "ᯤʽ"%u; "ᯥ"%u; "ᯥʽ"%u; "ᯓᯮʽ"%u; "ᯓᯮʽ"%u;
    "ᯟᯮʽ"%u; "ᯟᯮʽ"%u; "ᯤʽ"%u; "ᯀᯤʽ"%u; "ᯥʽ"%u; "ᯀᯥʽ"%u]);
   ("SouthVowelMap"%u, ["ᯤʽ"%u; "ᯥʽ"%u]);
   ("ModernVowelMap"%u, ["ᯤʽ"%u; "ᯀʽ"%u]);
   ("SinhalaVowelMap"%u, ["ᯤʽ"%u]);
   ("VowelSignMap"%u, ["ʽʽ"%u; [0x1BEB]%N; [0x1BEB; 0x2BD]%N; [0x1BEE]%N; [0x1BEE; 0x2BD]%N; "ᯓᯮʽ"%u; "ᯓᯮʽ"%u; "ᯟᯮʽ"%u;
    "ᯟᯮʽ"%u; [0x1BE9; 0x2BD]%N; "ᯤʽ"%u; [0x1BEC; 0x2BD]%N; [0x1BED]%N]);
   ("SouthVowelSignMap"%u, [[0x1BE9]%N; [0x1BEC]%N]);
   ("ModernVowelSignMap"%u, [[0x1BE9; 0x2BD]%N; "ʽʽ"%u]);
   ("SinhalaVowelSignMap"%u, [[0x1BE9; 0x2BD]%N]);
   ("AyogavahaMap"%u, [[0x1BF0; 0x2BD]%N; [0x1BF0]%N; [0x1BF1]%N]);
   ("ViramaMap"%u, [[0x1BF3]%N]);
   ("ConsonantMap"%u, ["ᯃ"%u; "ᯃʽ"%u; "ᯏ"%u; "ᯏʽ"%u; "ᯝ"%u; "ᯙʽ"%u; "ᯙʽ"%u; "ᯐ"%u;
    "ᯐʽ"%u; "ᯠ"%u; "ᯖʽ"%u; "ᯖʽ"%u; "ᯑʽ"%u; "ᯑʽ"%u; "ᯉʽ"%u; "ᯖ"%u;
    "ᯖʽ"%u; "ᯑ"%u; "ᯑʽ"%u; "ᯉ"%u; "ᯈ"%u; "ᯈʽ"%u; "ᯅ"%u; "ᯅʽ"%u;
    "ᯕ"%u; "ᯜ"%u; "ᯓ"%u; "ᯟ"%u; "ᯌ"%u; "ᯙʽ"%u; "ᯙʽ"%u; "ᯙ"%u;
    "ᯃʽ"%u]);
   ("SouthConsonantMap"%u, ["ᯟʽ"%u; "ᯟʽ"%u; "ᯓʽ"%u; "ᯉʽ"%u]);
   ("NuktaConsonantMap"%u, ["ᯃʽ"%u; "ᯃʽ"%u; "ᯏʽ"%u; "ᯐʽ"%u; "ᯑʽ"%u; "ᯑʽ"%u; "ᯈʽ"%u; "ᯜʽ"%u]);
   ("SinhalaConsonantMap"%u, [[0x1BF0; 0x1BCF; 0x2BD]%N; [0x1BF0; 0x1BD0; 0x2BD]%N; [0x1BF0; 0x1BD1; 0x2BD]%N; [0x1BF0; 0x1BD1; 0x2BD]%N; [0x1BF0; 0x1BC5; 0x2BD]%N]);
   ("NuktaMap"%u, ["ʽʽʽʽ"%u]);
   ("OmMap"%u, ["ᯥᯕ᯳ʽ"%u]);
   ("SignMap"%u, ["'"%u; "."%u; "."%u]);
   ("Aytham"%u, [[0x1BF1; 0x2BC]%N]);
   ("NumeralMap"%u, ["0"%u; "1"%u; "2"%u; "3"%u; "4"%u; "5"%u; "6"%u; "7"%u;
    "8"%u; "9"%u])].

(** aksharamukha/ScriptMap/EastIndic/BatakToba.py:5-171 *)
Definition S_EastIndic_BatakToba : table :=
  [("VowelMap"%u, ["ᯀ"%u; "ᯀʽ"%u; "ᯤ"%u; "ᯤʽ"%u; "ᯥ"%u; "ᯥʽ"%u; "ᯒᯮʽ"%u; "ᯒᯮʽ"%u;
    "ᯞᯮʽ"%u; "ᯞᯮʽ"%u; "ᯤʽ"%u; "ᯀᯤʽ"%u; "ᯥʽ"%u; "ᯀᯥʽ"%u]);
   ("SouthVowelMap"%u, ["ᯤʽ"%u; "ᯥʽ"%u]);
   ("ModernVowelMap"%u, ["ᯤʽ"%u; "ᯀʽ"%u]);
   ("SinhalaVowelMap"%u, ["ᯤʽ"%u]);
   ("VowelSignMap"%u, ["ʽʽ"%u; [0x1BEA]%N; [0x1BEA; 0x2BD]%N; [0x1BEE]%N; [0x1BEE; 0x2BD]%N; "ᯒᯮʽ"%u; "ᯒᯮʽ"%u; "ᯞᯮʽ"%u;
    "ᯞᯮʽ"%u; [0x1BE9; 0x2BD]%N; "ᯤʽ"%u; [0x1BEC; 0x2BD]%N; "ᯥʽ"%u]);
   ("SouthVowelSignMap"%u, [[0x1BE9]%N; [0x1BEC]%N]);
   ("ModernVowelSignMap"%u, [[0x1BE9; 0x2BD]%N; "ʽʽ"%u]);
   ("SinhalaVowelSignMap"%u, [[0x1BE9; 0x2BD]%N]);
   ("AyogavahaMap"%u, [[0x1BF0; 0x2BD]%N; [0x1BF0]%N; "ᯂ᯲ʽ"%u]);
   ("ViramaMap"%u, [[0x1BF2]%N]);
   ("ConsonantMap"%u, ["ᯂ"%u; "ᯂʽ"%u; "ᯎ"%u; "ᯎʽ"%u; "ᯝ"%u; "ᯘʽ"%u; "ᯘʽ"%u; "ᯐ"%u;
    "ᯐʽ"%u; "ᯠ"%u; "ᯗʽ"%u; "ᯗʽ"%u; "ᯑʽ"%u; "ᯑʽ"%u; "ᯉʽ"%u; "ᯗ"%u;
    "ᯗʽ"%u; "ᯑ"%u; "ᯑʽ"%u; "ᯉ"%u; "ᯇ"%u; "ᯇʽ"%u; "ᯅ"%u; "ᯅʽ"%u;
    "ᯔ"%u; "ᯛ"%u; "ᯒ"%u; "ᯞ"%u; "ᯍ"%u; "ᯘʽ"%u; "ᯘʽ"%u; "ᯘ"%u;
    "ᯂʽ"%u]);
   ("SouthConsonantMap"%u, ["ᯞʽ"%u; "ᯞʽ"%u; "ᯒʽ"%u; "ᯉʽ"%u]);
   ("NuktaConsonantMap"%u, ["ᯂʽ"%u; "ᯂʽ"%u; "ᯎʽ"%u; "ᯐʽ"%u; "ᯑʽ"%u; "ᯑʽ"%u; "ᯇʽ"%u; "ᯛʽ"%u]);
   ("SinhalaConsonantMap"%u, [[0x1BF0; 0x1BCE; 0x2BD]%N; [0x1BF0; 0x1BD0; 0x2BD]%N; [0x1BF0; 0x1BD1; 0x2BD]%N; [0x1BF0; 0x1BD1; 0x2BD]%N; [0x1BF0; 0x1BC5; 0x2BD]%N]);
   ("NuktaMap"%u, ["ʽʽʽʽ"%u]);
   ("OmMap"%u, ["ᯥᯔ᯲ʽ"%u]);
   ("SignMap"%u, ["'"%u; "."%u; "."%u]);
   ("Aytham"%u, ["ᯂ᯲ʽʼ"%u]);
   ("NumeralMap"%u, ["0"%u; "1"%u; "2"%u; "3"%u; "4"%u; "5"%u; "6"%u; "7"%u;
    "8"%u; "9"%u])].

(** aksharamukha/ScriptMap/EastIndic/Buginese.py:5-170 *)
Definition S_EastIndic_Buginese : table :=
  [("VowelMap"%u, ["ᨕ"%u; "ᨕʽ"%u; "ᨕᨗ"%u; "ᨕᨗʽ"%u; "ᨕᨘ"%u; "ᨕᨘʽ"%u; "ᨑᨘʽ"%u; "ᨑᨘʽ"%u;
    "ᨒᨘʽ"%u; "ᨒᨘʽ"%u; "ᨕᨙʽ"%u; "ᨕᨕᨗʽ"%u; "ᨕᨚʽ"%u; "ᨕᨕᨘʽ"%u]);
   ("SouthVowelMap"%u, ["ᨕᨙ"%u; "ᨕᨚ"%u]);
   ("ModernVowelMap"%u, ["ᨕᨛ"%u; "ᨕʽ"%u]);
   ("SinhalaVowelMap"%u, ["ᨕᨛʽ"%u]);
   ("VowelSignMap"%u, ["ʽʽ"%u; [0x1A17]%N; [0x1A17; 0x2BD]%N; [0x1A18]%N; [0x1A18; 0x2BD]%N; "ᨑᨘʽ"%u; "ᨑᨘʽ"%u; "ᨒᨘʽ"%u;
    "ᨒᨘʽ"%u; [0x1A19; 0x2BD]%N; "ᨕᨗʽ"%u; [0x1A1A; 0x2BD]%N; "ᨕᨘʽ"%u]);
   ("SouthVowelSignMap"%u, [[0x1A19]%N; [0x1A1A]%N]);
   ("ModernVowelSignMap"%u, [[0x1A1B]%N; "ʽʽʽ"%u]);
   ("SinhalaVowelSignMap"%u, [[0x1A1B; 0x2BD]%N]);
   ("AyogavahaMap"%u, ["ᨆʽ"%u; "ᨆʽ"%u; "ᨖʽ"%u]);
   ("ViramaMap"%u, ["ʾ"%u]);
   ("ConsonantMap"%u, ["ᨀ"%u; "ᨀʽ"%u; "ᨁ"%u; "ᨁʽ"%u; "ᨂ"%u; "ᨌ"%u; "ᨌʽ"%u; "ᨍ"%u;
    "ᨍʽ"%u; "ᨎ"%u; "ᨈʽ"%u; "ᨈʽ"%u; "ᨉʽ"%u; "ᨉʽ"%u; "ᨊʽ"%u; "ᨈ"%u;
    "ᨈʽ"%u; "ᨉ"%u; "ᨉʽ"%u; "ᨊ"%u; "ᨄ"%u; "ᨄʽ"%u; "ᨅ"%u; "ᨅʽ"%u;
    "ᨆ"%u; "ᨐ"%u; "ᨑ"%u; "ᨒ"%u; "ᨓ"%u; "ᨔʽ"%u; "ᨔʽ"%u; "ᨔ"%u;
    "ᨖ"%u]);
   ("SouthConsonantMap"%u, ["ᨒʽ"%u; "ᨒʽ"%u; "ᨑʽ"%u; "ᨊʽ"%u]);
   ("NuktaConsonantMap"%u, ["ᨀʽ"%u; "ᨀʽ"%u; "ᨁʽ"%u; "ᨍʽ"%u; "ᨉʽ"%u; "ᨉʽ"%u; "ᨄʽ"%u; "ᨐʽ"%u]);
   ("SinhalaConsonantMap"%u, ["ᨂᨁʽ"%u; "ᨎᨍʽ"%u; "ᨊᨉʽ"%u; "ᨊᨉʽ"%u; "ᨆᨅʽ"%u]);
   ("NuktaMap"%u, ["ʽʽʽʽ"%u]);
   ("OmMap"%u, ["ᨕᨚᨆʽ"%u]);
   ("SignMap"%u, ["ʽʽ"%u; "᨞"%u; "᨞᨞"%u]);
   ("Aytham"%u, ["ᨖʽʼ"%u]);
   ("NumeralMap"%u, ["0"%u; "1"%u; "2"%u; "3"%u; "4"%u; "5"%u; "6"%u; "7"%u;
    "8"%u; "9"%u])].

(** aksharamukha/ScriptMap/EastIndic/Buhid.py:5-171 *)
Definition S_EastIndic_Buhid : table :=
  [("VowelMap"%u, ["ᝀ"%u; "ᝀʽ"%u; "ᝁ"%u; "ᝁʽ"%u; "ᝂ"%u; "ᝂʽ"%u; "ᝎᝓʽ"%u; "ᝎᝓʽ"%u;
    "ᝎᝓʽ"%u; "ᝎᝓʽ"%u; "ᝁʽ"%u; "ᝀᝁʽ"%u; "ᝂʽ"%u; "ᝀᝂʽ"%u]);
   ("SouthVowelMap"%u, ["ᝁʽ"%u; "ᝂʽ"%u]);
   ("ModernVowelMap"%u, ["ᝁʽ"%u; "ᝀʽ"%u]);
   ("SinhalaVowelMap"%u, ["ᝁʽ"%u]);
   ("VowelSignMap"%u, ["ʽʽ"%u; [0x1752]%N; [0x1752; 0x2BD]%N; [0x1753]%N; [0x1753; 0x2BD]%N; "ᝎᝓʽ"%u; "ᝎᝓʽ"%u; "ᝎᝓʽ"%u;
    "ᝎᝓʽ"%u; [0x1752; 0x2BD]%N; "ᝁʽ"%u; [0x1753; 0x2BD]%N; "ᝂʽ"%u]);
   ("SouthVowelSignMap"%u, [[0x1752; 0x2BD]%N; [0x1753; 0x2BD]%N]);
   ("ModernVowelSignMap"%u, [[0x1752; 0x2BD]%N; "ʽʽ"%u]);
   ("SinhalaVowelSignMap"%u, [[0x1752; 0x2BD]%N]);
   ("AyogavahaMap"%u, ["ᝋʽ"%u; "ᝋʽ"%u; "ᝃʽ"%u]);
   ("ViramaMap"%u, ["ʽʽ"%u]);
   ("ConsonantMap"%u, ["ᝃ"%u; "ᝃʽ"%u; "ᝄ"%u; "ᝄʽ"%u; "ᝅ"%u; "ᝐʽ"%u; "ᝐʽ"%u; "ᝇʽ"%u;
    "ᝇʽ"%u; "ᝈʽ"%u; "ᝆʽ"%u; "ᝆʽ"%u; "ᝇʽ"%u; "ᝇʽ"%u; "ᝈʽ"%u; "ᝆ"%u;
    "ᝆʽ"%u; "ᝇ"%u; "ᝇʽ"%u; "ᝈ"%u; "ᝉ"%u; "ᝉʽ"%u; "ᝊ"%u; "ᝊʽ"%u;
    "ᝋ"%u; "ᝌ"%u; "ᝍ"%u; "ᝎ"%u; "ᝏ"%u; "ᝐʽ"%u; "ᝐʽ"%u; "ᝐ"%u;
    "ᝃʽ"%u]);
   ("SouthConsonantMap"%u, ["ᝎʽ"%u; "ᝎʽ"%u; "ᝎʽ"%u; "ᝈʽ"%u]);
   ("NuktaConsonantMap"%u, ["ᝃʽ"%u; "ᝃʽ"%u; "ᝄʽ"%u; "ᝇʽ"%u; "ᝇʽ"%u; "ᝇʽ"%u; "ᝉʽ"%u; "ᝌʽ"%u]);
   ("SinhalaConsonantMap"%u, ["ᝅᝄʽ"%u; "ᝈᝇʽ"%u; "ᝈᝇʽ"%u; "ᝈᝇʽ"%u; "ᝋᝊʽ"%u]);
   ("NuktaMap"%u, ["ʽʽʽʽ"%u]);
   ("OmMap"%u, ["ᝂᝋʽ"%u]);
   ("SignMap"%u, ["ʽʽ"%u; "᜵"%u; "᜶"%u]);
   ("Aytham"%u, ["ᝃʽʽ"%u]);
   ("NumeralMap"%u, ["0"%u; "1"%u; "2"%u; "3"%u; "4"%u; "5"%u; "6"%u; "7"%u;
    "8"%u; "9"%u])].

(** aksharamukha/ScriptMap/EastIndic/Burmese.py:5-171 *)
Definition S_EastIndic_Burmese : table :=
  [("VowelMap"%u, ["အ"%u; "အာ"%u; "ဣ"%u; "ဤ"%u; "ဥ"%u; "ဦ"%u; "ၒ"%u; "ၓ"%u;
    "ၔ"%u; "ၕ"%u; "ဧ"%u; "အဲ"%u; "ဩ"%u; "ဪ"%u]);
   ("SouthVowelMap"%u, ["ဧʽ"%u; "ဩʽ"%u]);
   ("ModernVowelMap"%u, ["ဧʽ"%u; "အာʽ"%u]);
   ("SinhalaVowelMap"%u, ["ဧʽ"%u]);
   ("VowelSignMap"%u, [[0x102C]%N; [0x102D]%N; [0x102E]%N; [0x102F]%N; [0x1030]%N; [0x1056]%N; [0x1057]%N; [0x1058]%N;
    [0x1059]%N; [0x1031]%N; [0x1032]%N; [0x1031; 0x102C]%N; [0x1031; 0x102C; 0x103A]%N]);
   ("SouthVowelSignMap"%u, [[0x1031; 0x2BD]%N; [0x1031; 0x102C; 0x2BD]%N]);
   ("ModernVowelSignMap"%u, [[0x1031; 0x2BD]%N; [0x102C; 0x2BD]%N]);
   ("SinhalaVowelSignMap"%u, [[0x1031; 0x2BD]%N]);
   ("AyogavahaMap"%u, [[0x1036; 0x2BD]%N; [0x1036]%N; [0x1038]%N]);
   ("ViramaMap"%u, [[0x103A]%N]);
   ("ConsonantMap"%u, ["က"%u; "ခ"%u; "ဂ"%u; "ဃ"%u; "င"%u; "စ"%u; "ဆ"%u; "ဇ"%u;
    "ဈ"%u; "ဉ"%u; "ဋ"%u; "ဌ"%u; "ဍ"%u; "ဎ"%u; "ဏ"%u; "တ"%u;
    "ထ"%u; "ဒ"%u; "ဓ"%u; "န"%u; "ပ"%u; "ဖ"%u; "ဗ"%u; "ဘ"%u;
    "မ"%u; "ယ"%u; "ရ"%u; "လ"%u; "ဝ"%u; "ၐ"%u; "ၑ"%u; "သ"%u;
    "ဟ"%u]);
   ("SouthConsonantMap"%u, ["ဠ"%u; "ဠʽ"%u; "ရʽ"%u; "နʽ"%u]);
   ("NuktaConsonantMap"%u, ["ကʽ"%u; "ခʽ"%u; "ဂʽ"%u; "ဇʽ"%u; "ဍʽ"%u; "ဎʽ"%u; "ဖʽ"%u; "ယʽ"%u]);
   ("SinhalaConsonantMap"%u, [[0x1036; 0x1002; 0x2BD]%N; [0x1036; 0x1007; 0x2BD]%N; [0x1036; 0x100D; 0x2BD]%N; [0x1036; 0x1012; 0x2BD]%N; [0x1036; 0x1017; 0x2BD]%N]);
   ("NuktaMap"%u, ["ʽʽʽʽ"%u]);
   ("OmMap"%u, ["ဥုံ"%u]);
   ("SignMap"%u, ["'"%u; "၊"%u; "။"%u]);
   ("Aytham"%u, [[0x1038; 0x2BD]%N]);
   ("NumeralMap"%u, ["၀"%u; "၁"%u; "၂"%u; "၃"%u; "၄"%u; "၅"%u; "၆"%u; "၇"%u;
    "၈"%u; "၉"%u])].

(** aksharamukha/ScriptMap/EastIndic/Cham.py:7-173 *)
Definition S_EastIndic_Cham : table :=
  [("VowelMap"%u, ["ꨀ"%u; "ꨀꨩ"%u; "ꨁ"%u; "ꨁꨩ"%u; "ꨂ"%u; "ꨂꨩ"%u; "ꨣꨮ"%u; "ꨣꨮꨩ"%u;
    "ꨤꨮ"%u; "ꨤꨮꨩ"%u; "ꨃ"%u; "ꨄ"%u; "ꨅ"%u; "ꨀꨯꨱ"%u]);
   ("SouthVowelMap"%u, ["ꨃʽ"%u; "ꨅʽ"%u]);
   ("ModernVowelMap"%u, ["ꨃʽ"%u; "ꨀꨩʽ"%u]);
   ("SinhalaVowelMap"%u, ["ꨃʽ"%u]);
   ("VowelSignMap"%u, [[0xAA29]%N; [0xAA2A]%N; [0xAA2B]%N; [0xAA2D]%N; [0xAA2D; 0xAA29]%N; "ʾꨣꨮ"%u; "ʾꨣꨮꨩ"%u; "ʾꨤꨮ"%u;
    "ʾꨤꨮꨩ"%u; [0xAA2F; 0xAA2E]%N; [0xAA30]%N; [0xAA2F]%N; [0xAA2F; 0xAA31]%N]);
   ("SouthVowelSignMap"%u, [[0xAA2F; 0xAA2E; 0x2BD]%N; [0xAA2E; 0x2BD]%N]);
   ("ModernVowelSignMap"%u, [[0xAA2F; 0xAA2E; 0x2BD]%N; [0xAA29; 0x2BD]%N]);
   ("SinhalaVowelSignMap"%u, [[0xAA2F; 0xAA2E; 0x2BD]%N]);
   ("AyogavahaMap"%u, [[0xAA43]%N; [0xAA4C]%N; [0xAA4D]%N]);
   ("ViramaMap"%u, ["ʾ"%u]);
   ("ConsonantMap"%u, ["ꨆ"%u; "ꨇ"%u; "ꨈ"%u; "ꨉ"%u; "ꨋ"%u; "ꨌ"%u; "ꨍ"%u; "ꨎ"%u;
    "ꨏ"%u; "ꨑ"%u; "ꨓʽ"%u; "ꨔʽ"%u; "ꨕʽ"%u; "ꨖʽ"%u; "ꨘʽ"%u; "ꨓ"%u;
    "ꨔ"%u; "ꨕ"%u; "ꨖ"%u; "ꨘ"%u; "ꨚ"%u; "ꨜ"%u; "ꨝ"%u; "ꨞ"%u;
    "ꨠ"%u; "ꨢ"%u; "ꨣ"%u; "ꨤ"%u; "ꨥ"%u; "ꨦʽ"%u; "ꨦ"%u; "ꨧ"%u;
    "ꨨ"%u]);
   ("SouthConsonantMap"%u, ["ꨤʽ"%u; "ꨤʽ"%u; "ꨣʽ"%u; "ꨘʽ"%u]);
   ("NuktaConsonantMap"%u, ["ꨆʽ"%u; "ꨇʽ"%u; "ꨈʽ"%u; "ꨎʽ"%u; "ꨕʽ"%u; "ꨖʽ"%u; "ꨜʽ"%u; "ꨥʽ"%u]);
   ("SinhalaConsonantMap"%u, [[0xAA4C; 0xAA08; 0x2BD]%N; "ꨒ"%u; "ꨙʽ"%u; "ꨙ"%u; "ꨡ"%u]);
   ("NuktaMap"%u, ["ʽʽʽʽ"%u]);
   ("OmMap"%u, ["ꨅꩌ"%u]);
   ("SignMap"%u, ["'"%u; "꩝"%u; "꩞"%u]);
   ("Aytham"%u, [[0xAA4D; 0x2BD]%N]);
   ("NumeralMap"%u, ["꩐"%u; "꩑"%u; "꩒"%u; "꩓"%u; "꩔"%u; "꩕"%u; "꩖"%u; "꩗"%u;
    "꩘"%u; "꩙"%u])].

(** aksharamukha/ScriptMap/EastIndic/DivesAkuru.py:5-171 *)
Definition S_EastIndic_DivesAkuru : table :=
  [("VowelMap"%u, ["𑤀"%u; "𑤁"%u; "𑤂"%u; "𑤃"%u; "𑤄"%u; "𑤅"%u; "𑤧𑤳"%u; "𑤧𑤴"%u;
    "𑤨𑤳"%u; "𑤨𑤴"%u; "𑤆"%u; "𑤆𑤵"%u; "𑤉"%u; "𑤀𑤄ʽ"%u]);
   ("SouthVowelMap"%u, ["𑤆ʽ"%u; "𑤉ʽ"%u]);
   ("ModernVowelMap"%u, ["𑤆ʽ"%u; "𑤁ʽ"%u]);
   ("SinhalaVowelMap"%u, ["𑤆ʽ"%u]);
   ("VowelSignMap"%u, [[0x11930]%N; [0x11931]%N; [0x11932]%N; [0x11933]%N; [0x11934]%N; [0x11942; 0x11933; 0x2BD]%N; [0x11942; 0x11934; 0x2BD]%N; [0x1193E; 0x11928; 0x11933; 0x2BD]%N;
    [0x1193E; 0x11928; 0x11934; 0x2BD]%N; [0x11935]%N; [0x11937]%N; [0x11938]%N; "𑤄ʽ"%u]);
   ("SouthVowelSignMap"%u, [[0x11935; 0x2BD]%N; [0x11938; 0x2BD]%N]);
   ("ModernVowelSignMap"%u, [[0x11935; 0x2BD]%N; [0x11930; 0x2BD]%N]);
   ("SinhalaVowelSignMap"%u, [[0x11935; 0x2BD]%N]);
   ("AyogavahaMap"%u, [[0x1193C]%N; [0x1193B]%N; "𑤭𑤽ʽ"%u]);
   ("ViramaMap"%u, [[0x1193D]%N]);
   ("ConsonantMap"%u, ["𑤌"%u; "𑤍"%u; "𑤎"%u; "𑤏"%u; "𑤐"%u; "𑤑"%u; "𑤒"%u; "𑤓"%u;
    "𑤓ʽ"%u; "𑤕"%u; "𑤖"%u; "𑤖ʽ"%u; "𑤘"%u; "𑤙"%u; "𑤚"%u; "𑤛"%u;
    "𑤜"%u; "𑤝"%u; "𑤞"%u; "𑤟"%u; "𑤠"%u; "𑤡"%u; "𑤢"%u; "𑤣"%u;
    "𑤤"%u; "𑤥"%u; "𑤧"%u; "𑤨"%u; "𑤩"%u; "𑤪"%u; "𑤫"%u; "𑤬"%u;
    "𑤭"%u]);
   ("SouthConsonantMap"%u, ["𑤮"%u; "𑤮𑥃"%u; "𑤧𑥃"%u; "𑤟𑥃"%u]);
   ("NuktaConsonantMap"%u, ["𑤌𑥃"%u; "𑤍𑥃"%u; "𑤎𑥃"%u; "𑤯"%u; "𑤘𑥃"%u; "𑤙𑥃"%u; "𑤡𑥃"%u; "𑤥𑥃"%u]);
   ("SinhalaConsonantMap"%u, ["𑤿𑤎ʽ"%u; "𑤿𑤓ʽ"%u; "𑤿𑤘ʽ"%u; "𑤿𑤝ʽ"%u; "𑤿𑤢ʽ"%u]);
   ("NuktaMap"%u, [[0x11943]%N]);
   ("OmMap"%u, ["𑤉𑤼"%u]);
   ("SignMap"%u, ["ʽʽʽ"%u; "𑥆ʽ"%u; "𑥆"%u]);
   ("Aytham"%u, ["𑤭𑤽ʽʽ"%u]);
   ("NumeralMap"%u, ["𑥐"%u; "𑥑"%u; "𑥒"%u; "𑥓"%u; "𑥔"%u; "𑥕"%u; "𑥖"%u; "𑥗"%u;
    "𑥘"%u; "𑥙"%u])].

(** aksharamukha/ScriptMap/EastIndic/Hanunoo.py:5-171 *)
Definition S_EastIndic_Hanunoo : table :=
  [("VowelMap"%u, ["ᜠ"%u; "ᜠʽ"%u; "ᜡ"%u; "ᜡʽ"%u; "ᜢ"%u; "ᜢʽ"%u; "ᜮᜳʽ"%u; "ᜮᜳʽ"%u;
    "ᜮᜳʽ"%u; "ᜮᜳʽ"%u; "ᜡʽ"%u; "ᜠᜡʽ"%u; "ᜢʽ"%u; "ᜠᜢʽ"%u]);
   ("SouthVowelMap"%u, ["ᜡʽ"%u; "ᜢʽ"%u]);
   ("ModernVowelMap"%u, ["ᜡʽ"%u; "ᜠʽ"%u]);
   ("SinhalaVowelMap"%u, ["ᜡʽ"%u]);
   ("VowelSignMap"%u, ["ʽʽ"%u; [0x1732]%N; [0x1732; 0x2BD]%N; [0x1733]%N; [0x1733; 0x2BD]%N; "ᜮᜳʽ"%u; "ᜮᜳʽ"%u; "ᜮᜳʽ"%u;
    "ᜮᜳʽ"%u; [0x1732; 0x2BD]%N; "ᜡʽ"%u; [0x1733; 0x2BD]%N; "ᜢʽ"%u]);
   ("SouthVowelSignMap"%u, [[0x1732; 0x2BD]%N; [0x1733; 0x2BD]%N]);
   ("ModernVowelSignMap"%u, [[0x1732; 0x2BD]%N; "ʽʽ"%u]);
   ("SinhalaVowelSignMap"%u, [[0x1732; 0x2BD]%N]);
   ("AyogavahaMap"%u, ["ᜫ᜴ʽ"%u; "ᜫ᜴ʽ"%u; "ᜣ᜴ʽ"%u]);
   ("ViramaMap"%u, [[0x1734]%N]);
   ("ConsonantMap"%u, ["ᜣ"%u; "ᜣʽ"%u; "ᜤ"%u; "ᜤʽ"%u; "ᜥ"%u; "ᜰʽ"%u; "ᜰʽ"%u; "ᜧʽ"%u;
    "ᜧʽ"%u; "ᜨʽ"%u; "ᜦʽ"%u; "ᜦʽ"%u; "ᜧʽ"%u; "ᜧʽ"%u; "ᜨʽ"%u; "ᜦ"%u;
    "ᜦʽ"%u; "ᜧ"%u; "ᜧʽ"%u; "ᜨ"%u; "ᜩ"%u; "ᜩʽ"%u; "ᜪ"%u; "ᜪʽ"%u;
    "ᜫ"%u; "ᜬ"%u; "ᜭ"%u; "ᜮ"%u; "ᜯ"%u; "ᜰʽ"%u; "ᜰʽ"%u; "ᜰ"%u;
    "ᜣʽ"%u]);
   ("SouthConsonantMap"%u, ["ᜮʽ"%u; "ᜮʽ"%u; "ᜮʽ"%u; "ᜨʽ"%u]);
   ("NuktaConsonantMap"%u, ["ᜣʽ"%u; "ᜣʽ"%u; "ᜤʽ"%u; "ᜧʽ"%u; "ᜧʽ"%u; "ᜧʽ"%u; "ᜩʽ"%u; "ᜬʽ"%u]);
   ("SinhalaConsonantMap"%u, ["ᜥᜤʽ"%u; "ᜨᜧʽ"%u; "ᜨᜧʽ"%u; "ᜨᜧʽ"%u; "ᜫᜪʽ"%u]);
   ("NuktaMap"%u, ["ʽʽʽʽ"%u]);
   ("OmMap"%u, ["ᜢᜫ᜴ʽ"%u]);
   ("SignMap"%u, ["ʽʽ"%u; "᜵"%u; "᜶"%u]);
   ("Aytham"%u, ["ᜣ᜴ʽʽ"%u]);
   ("NumeralMap"%u, ["0"%u; "1"%u; "2"%u; "3"%u; "4"%u; "5"%u; "6"%u; "7"%u;
    "8"%u; "9"%u])].

(** aksharamukha/ScriptMap/EastIndic/Javanese.py:5-171 *)
Definition S_EastIndic_Javanese : table :=
  [("VowelMap"%u, ["ꦄ"%u; "ꦄꦴ"%u; "ꦆ"%u; "ꦇ"%u; "ꦈ"%u; "ꦈꦴ"%u; "ꦉ"%u; "ꦉꦴ"%u;
    "ꦊ"%u; "ꦋ"%u; "ꦌ"%u; "ꦍ"%u; "ꦎ"%u; "ꦎꦴ"%u]);
   ("SouthVowelMap"%u, ["ꦌʽ"%u; "ꦎʽ"%u]);
   ("ModernVowelMap"%u, ["ꦄꦼ"%u; "ꦄꦴʽ"%u]);
   ("SinhalaVowelMap"%u, ["ꦄꦼꦴ"%u]);
   ("VowelSignMap"%u, [[0xA9B4]%N; [0xA9B6]%N; [0xA9B7]%N; [0xA9B8]%N; [0xA9B9]%N; [0xA9BD]%N; [0xA9C0; 0xA989; 0xA9B4]%N; [0xA9C0; 0xA98A]%N;
    [0xA9C0; 0xA98B]%N; [0xA9BA]%N; [0xA9BB]%N; [0xA9BA; 0xA9B4]%N; [0xA9BB; 0xA9B4]%N]);
   ("SouthVowelSignMap"%u, [[0xA9BA; 0x2BD]%N; [0xA9BA; 0xA9B4; 0x2BD]%N]);
   ("ModernVowelSignMap"%u, [[0xA9BC]%N; [0xA9B4; 0x2BD]%N]);
   ("SinhalaVowelSignMap"%u, [[0xA9BC; 0xA9B4]%N]);
   ("AyogavahaMap"%u, [[0xA980]%N; [0xA981]%N; [0xA983]%N]);
   ("ViramaMap"%u, [[0xA9C0]%N]);
   ("ConsonantMap"%u, ["ꦏ"%u; "ꦑ"%u; "ꦒ"%u; "ꦓ"%u; "ꦔ"%u; "ꦕ"%u; "ꦖ"%u; "ꦗ"%u;
    "ꦙ"%u; "ꦚ"%u; "ꦛ"%u; "ꦜ"%u; "ꦝ"%u; "ꦞ"%u; "ꦟ"%u; "ꦠ"%u;
    "ꦡ"%u; "ꦢ"%u; "ꦣ"%u; "ꦤ"%u; "ꦥ"%u; "ꦦ"%u; "ꦧ"%u; "ꦨ"%u;
    "ꦩ"%u; "ꦪ"%u; "ꦫ"%u; "ꦭ"%u; "ꦮ"%u; "ꦯ"%u; "ꦰ"%u; "ꦱ"%u;
    "ꦲ"%u]);
   ("SouthConsonantMap"%u, ["ꦭ꦳"%u; "ꦰ꦳"%u; "ꦫ꦳"%u; "ꦤ꦳"%u]);
   ("NuktaConsonantMap"%u, ["ꦏ꦳"%u; "ꦑ꦳"%u; "ꦒ꦳"%u; "ꦗ꦳"%u; "ꦝ꦳"%u; "ꦞ꦳"%u; "ꦥ꦳"%u; "ꦪ꦳"%u]);
   ("SinhalaConsonantMap"%u, [[0xA980; 0xA992; 0x2BD]%N; [0xA980; 0xA997; 0x2BD]%N; [0xA980; 0xA99D; 0x2BD]%N; [0xA980; 0xA9A2; 0x2BD]%N; [0xA980; 0xA9A7; 0x2BD]%N]);
   ("NuktaMap"%u, [[0xA9B3]%N]);
   ("OmMap"%u, ["ꦎꦀ"%u]);
   ("SignMap"%u, ["'"%u; "꧈"%u; "꧉"%u]);
   ("Aytham"%u, [[0xA983; 0x2BD]%N]);
   ("NumeralMap"%u, ["꧐"%u; "꧑"%u; "꧒"%u; "꧓"%u; "꧔"%u; "꧕"%u; "꧖"%u; "꧗"%u;
    "꧘"%u; "꧙"%u])].

(** aksharamukha/ScriptMap/EastIndic/Kawi.py:5-171 *)
Definition S_EastIndic_Kawi : table :=
  [("VowelMap"%u, [[0x11F04]%N; [0x11F05]%N; [0x11F06]%N; [0x11F07]%N; [0x11F08]%N; [0x11F09]%N; [0x11F0A]%N; [0x11F0B]%N;
    [0x11F0C]%N; [0x11F0D]%N; [0x11F0E]%N; [0x11F0F]%N; [0x11F10]%N; [0x11F10; 0x11F34]%N]);
   ("SouthVowelMap"%u, [[0x11F0E; 0x2BD]%N; [0x11F10; 0x2BD]%N]);
   ("ModernVowelMap"%u, [[0x11F04; 0x11F40]%N; [0x11F05; 0x2BD]%N]);
   ("SinhalaVowelMap"%u, [[0x11F04; 0x11F40; 0x11F34]%N]);
   ("VowelSignMap"%u, [[0x11F34]%N; [0x11F36]%N; [0x11F37]%N; [0x11F38]%N; [0x11F39]%N; [0x11F3A]%N; [0x11F42; 0x11F0B]%N; [0x11F42; 0x11F0C]%N;
    [0x11F42; 0x11F0D]%N; [0x11F3E]%N; [0x11F3F]%N; [0x11F3E; 0x11F34]%N; [0x11F3F; 0x11F34]%N]);
   ("SouthVowelSignMap"%u, [[0x11F3E; 0x2BD]%N; [0x11F3E; 0x11F34; 0x2BD]%N]);
   ("ModernVowelSignMap"%u, [[0x11F40]%N; [0x11F34; 0x2BD]%N]);
   ("SinhalaVowelSignMap"%u, [[0x11F40; 0x11F34]%N]);
   ("AyogavahaMap"%u, [[0x11F00]%N; [0x11F01]%N; [0x11F03]%N]);
   ("ViramaMap"%u, [[0x11F41]%N]);
   ("ConsonantMap"%u, [[0x11F12]%N; [0x11F13]%N; [0x11F14]%N; [0x11F15]%N; [0x11F16]%N; [0x11F17]%N; [0x11F18]%N; [0x11F19]%N;
    [0x11F1A]%N; [0x11F1B]%N; [0x11F1C]%N; [0x11F1D]%N; [0x11F1E]%N; [0x11F1F]%N; [0x11F20]%N; [0x11F21]%N;
    [0x11F22]%N; [0x11F23]%N; [0x11F24]%N; [0x11F25]%N; [0x11F26]%N; [0x11F27]%N; [0x11F28]%N; [0x11F29]%N;
    [0x11F2A]%N; [0x11F2B]%N; [0x11F2C]%N; [0x11F2D]%N; [0x11F2E]%N; [0x11F2F]%N; [0x11F30]%N; [0x11F31]%N;
    [0x11F32]%N]);
   ("SouthConsonantMap"%u, [[0x11F2D; 0x2BD]%N; [0x11F2D; 0x2BD]%N; [0x11F2C; 0x2BD]%N; [0x11F25; 0x2BD]%N]);
   ("NuktaConsonantMap"%u, [[0x11F12; 0x2BD]%N; [0x11F13; 0x2BD]%N; [0x11F14; 0x2BD]%N; [0x11F19; 0x2BD]%N; [0x11F1E; 0x2BD]%N; [0x11F1E; 0x2BD]%N; [0x11F27; 0x2BD]%N; [0x11F2B; 0x2BD]%N]);
   ("SinhalaConsonantMap"%u, [[0x11F00; 0x11F14; 0x2BD]%N; [0x11F00; 0x11F19; 0x2BD]%N; [0x11F00; 0x11F1E; 0x2BD]%N; [0x11F00; 0x11F23; 0x2BD]%N; [0x11F00; 0x11F28; 0x2BD]%N]);
   ("NuktaMap"%u, ["ʽʽʽʽ"%u]);
   ("OmMap"%u, [[0x11F10; 0x11F00]%N]);
   ("SignMap"%u, ["ʽʽʽ"%u; [0x11F43]%N; [0x11F44]%N]);
   ("Aytham"%u, [[0x11F03; 0x2BD]%N]);
   ("NumeralMap"%u, [[0x11F50]%N; [0x11F51]%N; [0x11F52]%N; [0x11F53]%N; [0x11F54]%N; [0x11F55]%N; [0x11F56]%N; [0x11F57]%N;
    [0x11F58]%N; [0x11F59]%N])].

(** aksharamukha/ScriptMap/EastIndic/KhamtiShan.py:5-172 *)
Definition S_EastIndic_KhamtiShan : table :=
  [("VowelMap"%u, ["ဢ"%u; "ဢႃ"%u; "ဢိ"%u; "ဢီ"%u; "ဢု"%u; "ဢူ"%u; "ရိʽ"%u; "ရီʽ"%u;
    "လိʽ"%u; "လီʽ"%u; "ဢေ"%u; "ဢႆ"%u; "ဢေႃ"%u; "ဢဝ်ʽ"%u]);
   ("SouthVowelMap"%u, ["ဢေʽ"%u; "ဢူဝ်ʽ"%u]);
   ("ModernVowelMap"%u, ["ဢႄ"%u; "ဢႃʽ"%u]);
   ("SinhalaVowelMap"%u, ["ဢႄʽ"%u]);
   ("VowelSignMap"%u, [[0x1083]%N; [0x102D]%N; [0x102E]%N; [0x102F]%N; [0x1030]%N; [0x103A; 0x101B; 0x102D; 0x2BD]%N; [0x103A; 0x101B; 0x102E; 0x2BD]%N; [0x103A; 0x101C; 0x102D; 0x2BD]%N;
    [0x103A; 0x101C; 0x102E; 0x2BD]%N; [0x1031]%N; [0x1086]%N; [0x1031; 0x1083]%N; "ဝ်ʽ"%u]);
   ("SouthVowelSignMap"%u, [[0x1031; 0x2BD]%N; [0x1030; 0x101D; 0x103A; 0x2BD]%N]);
   ("ModernVowelSignMap"%u, [[0x1084]%N; [0x1083; 0x2BD]%N]);
   ("SinhalaVowelSignMap"%u, [[0x1084; 0x2BD]%N]);
   ("AyogavahaMap"%u, [[0x1036; 0x2BD]%N; [0x1036]%N; [0x1038]%N]);
   ("ViramaMap"%u, [[0x103A]%N]);
   ("ConsonantMap"%u, ["က"%u; "ၵ"%u; "ꩠ"%u; "ၷ"%u; "င"%u; "ꩡ"%u; "ꩢ"%u; "ꩣ"%u;
    "ꩤ"%u; "ꩥ"%u; "ꩦ"%u; "ꩧ"%u; "ꩨ"%u; "ꩩ"%u; "ꧣ"%u; "တ"%u;
    "ထ"%u; "ၻ"%u; "ꩪ"%u; "ꩫ"%u; "ပ"%u; "ၸ"%u; "ၿ"%u; "ၹ"%u;
    "မ"%u; "ယ"%u; "ရ"%u; "လ"%u; "ဝ"%u; "ꩬʽ"%u; "ꩬʽ"%u; "ꩬ"%u;
    "ꩭ"%u]);
   ("SouthConsonantMap"%u, ["ꩮ"%u; "ꩮʽ"%u; "ရʽ"%u; "ၼʽ"%u]);
   ("NuktaConsonantMap"%u, ["ကʽ"%u; "ꩱ"%u; "ꩠʽ"%u; "ꩲ"%u; "ꩨʽ"%u; "ꩩʽ"%u; "ꩯ"%u; "ယʽ"%u]);
   ("SinhalaConsonantMap"%u, [[0x1036; 0x1077; 0x2BD]%N; [0x1036; 0xAA61; 0x2BD]%N; [0x1036; 0xAA68; 0x2BD]%N; [0x1036; 0x107B; 0x2BD]%N; [0x1036; 0x107F; 0x2BD]%N]);
   ("NuktaMap"%u, ["ʽʽ"%u]);
   ("OmMap"%u, ["ဢေႃံ"%u]);
   ("SignMap"%u, ["'"%u; "၊"%u; "။"%u]);
   ("Aytham"%u, [[0x1038; 0x2BD]%N]);
   ("NumeralMap"%u, ["႐"%u; "႑"%u; "႒"%u; "႓"%u; "႔"%u; "႕"%u; "႖"%u; "႗"%u;
    "႘"%u; "႙"%u])].

(** aksharamukha/ScriptMap/EastIndic/Khmer.py:5-171 *)
Definition S_EastIndic_Khmer : table :=
  [("VowelMap"%u, ["អ"%u; "អា"%u; "ឥ"%u; "ឦ"%u; "ឧ"%u; "ឩ"%u; "ឫ"%u; "ឬ"%u;
    "ឭ"%u; "ឮ"%u; "ឯ"%u; "ឰ"%u; "ឱ"%u; "ឳ"%u]);
   ("SouthVowelMap"%u, ["ឯʽ"%u; "ឱʽ"%u]);
   ("ModernVowelMap"%u, ["ឯʽ"%u; "អាʽ"%u]);
   ("SinhalaVowelMap"%u, ["ឯʽ"%u]);
   ("VowelSignMap"%u, [[0x17B6]%N; [0x17B7]%N; [0x17B8]%N; [0x17BB]%N; [0x17BC]%N; [0x17D2; 0x17AB]%N; [0x17D2; 0x17AC]%N; [0x17D2; 0x17AD]%N;
    [0x17D2; 0x17AE]%N; [0x17C1]%N; [0x17C3]%N; [0x17C4]%N; [0x17C5]%N]);
   ("SouthVowelSignMap"%u, [[0x17C1; 0x2BD]%N; [0x17C4; 0x2BD]%N]);
   ("ModernVowelSignMap"%u, [[0x17C1; 0x2BD]%N; [0x17B6; 0x2BD]%N]);
   ("SinhalaVowelSignMap"%u, [[0x17C1; 0x2BD]%N]);
   ("AyogavahaMap"%u, [[0x17C6; 0x2BD]%N; [0x17C6]%N; [0x17C7]%N]);
   ("ViramaMap"%u, [[0x17D1]%N]);
   ("ConsonantMap"%u, ["ក"%u; "ខ"%u; "គ"%u; "ឃ"%u; "ង"%u; "ច"%u; "ឆ"%u; "ជ"%u;
    "ឈ"%u; "ញ"%u; "ដ"%u; "ឋ"%u; "ឌ"%u; "ឍ"%u; "ណ"%u; "ត"%u;
    "ថ"%u; "ទ"%u; "ធ"%u; "ន"%u; "ប"%u; "ផ"%u; "ព"%u; "ភ"%u;
    "ម"%u; "យ"%u; "រ"%u; "ល"%u; "វ"%u; "ឝ"%u; "ឞ"%u; "ស"%u;
    "ហ"%u]);
   ("SouthConsonantMap"%u, ["ឡ"%u; "ឡʽ"%u; "រʽ"%u; "នʽ"%u]);
   ("NuktaConsonantMap"%u, ["កʽ"%u; "ខʽ"%u; "គʽ"%u; "ជʽ"%u; "ឌʽ"%u; "ឍʽ"%u; "ផʽ"%u; "យʽ"%u]);
   ("SinhalaConsonantMap"%u, [[0x17C6; 0x1782; 0x2BD]%N; [0x17C6; 0x1787; 0x2BD]%N; [0x17C6; 0x178C; 0x2BD]%N; [0x17C6; 0x1791; 0x2BD]%N; [0x17C6; 0x1796; 0x2BD]%N]);
   ("NuktaMap"%u, ["ʽʽʽʽ"%u]);
   ("OmMap"%u, ["ឱំ"%u]);
   ("SignMap"%u, ["ៜ"%u; "។"%u; "៕"%u]);
   ("Aytham"%u, [[0x17C7; 0x2BD]%N]);
   ("NumeralMap"%u, ["០"%u; "១"%u; "២"%u; "៣"%u; "៤"%u; "៥"%u; "៦"%u; "៧"%u;
    "៨"%u; "៩"%u])].

(** aksharamukha/ScriptMap/EastIndic/KhmerLoC.py:5-171 *)
Definition S_EastIndic_KhmerLoC : table :=
  [("VowelMap"%u, ["អʽ"%u; "អាʽ"%u; "ឥ"%u; "ឦ"%u; "ឧ"%u; "ឩ"%u; "ឫ"%u; "ឬ"%u;
    "ឭ"%u; "ឮ"%u; "អេʽ"%u; "ឰ"%u; "ឱ"%u; "ឳ"%u]);
   ("SouthVowelMap"%u, ["ឯʽ"%u; "ឱʽ"%u]);
   ("ModernVowelMap"%u, ["ឯ"%u; "អាʽ"%u]);
   ("SinhalaVowelMap"%u, ["ឯʽ"%u]);
   ("VowelSignMap"%u, [[0x17B6]%N; [0x17B7]%N; [0x17B8]%N; [0x17BB]%N; [0x17BC]%N; [0x17D2; 0x17AB]%N; [0x17D2; 0x17AC]%N; [0x17D2; 0x17AD]%N;
    [0x17D2; 0x17AE]%N; [0x17C1]%N; [0x17C3]%N; [0x17C4]%N; [0x17C5]%N]);
   ("SouthVowelSignMap"%u, [[0x17C1; 0x2BD]%N; [0x17C4; 0x2BD]%N]);
   ("ModernVowelSignMap"%u, [[0x17C2]%N; [0x17B6; 0x2BD]%N]);
   ("SinhalaVowelSignMap"%u, [[0x17C1; 0x2BD]%N]);
   ("AyogavahaMap"%u, [[0x17C6; 0x2BD]%N; [0x17C6]%N; [0x17C7]%N]);
   ("ViramaMap"%u, [[0x17D1]%N]);
   ("ConsonantMap"%u, ["ក"%u; "ខ"%u; "គ"%u; "ឃ"%u; "ង"%u; "ច"%u; "ឆ"%u; "ជ"%u;
    "ឈ"%u; "ញ"%u; "ដ"%u; "ឋ"%u; "ឌ"%u; "ឍ"%u; "ណ"%u; "ត"%u;
    "ថ"%u; "ទ"%u; "ធ"%u; "ន"%u; "ប"%u; "ផ"%u; "ព"%u; "ភ"%u;
    "ម"%u; "យ"%u; "រ"%u; "ល"%u; "វ"%u; "ឝ"%u; "ឞ"%u; "ស"%u;
    "ហ"%u]);
   ("SouthConsonantMap"%u, ["ឡ"%u; "ឡʽ"%u; "រʽ"%u; "នʽ"%u]);
   ("NuktaConsonantMap"%u, ["កʽ"%u; "ខʽ"%u; "គʽ"%u; "ជʽ"%u; "ឌʽ"%u; "ឍʽ"%u; "ផʽ"%u; "យʽ"%u]);
   ("SinhalaConsonantMap"%u, [[0x17C6; 0x1782; 0x2BD]%N; [0x17C6; 0x1787; 0x2BD]%N; [0x17C6; 0x178C; 0x2BD]%N; [0x17C6; 0x1791; 0x2BD]%N; [0x17C6; 0x1796; 0x2BD]%N]);
   ("NuktaMap"%u, ["ʽʽʽʽ"%u]);
   ("OmMap"%u, ["ឱំ"%u]);
   ("SignMap"%u, ["ៜ"%u; "។"%u; "៕"%u]);
   ("Aytham"%u, [[0x17C7; 0x2BD]%N]);
   ("NumeralMap"%u, ["០"%u; "១"%u; "២"%u; "៣"%u; "៤"%u; "៥"%u; "៦"%u; "៧"%u;
    "៨"%u; "៩"%u])].

(** aksharamukha/ScriptMap/EastIndic/KhomThai.py:7-174 *)
Definition S_EastIndic_KhomThai : table :=
  [("VowelMap"%u, ["อ"%u; "อา"%u; "อิ"%u; "อี"%u; "อุ"%u; "อู"%u; "รุʽ"%u; "รูʽ"%u;
    "ลุʽ"%u; "ลูʽ"%u; "อเ"%u; "อยฺʽ"%u; "อโ"%u; "อวฺʽ"%u]);
   ("SouthVowelMap"%u, ["อเʽ"%u; "อโʽ"%u]);
   ("ModernVowelMap"%u, ["อแʽ"%u; "อาʽ"%u]);
   ("SinhalaVowelMap"%u, ["อแ"%u]);
   ("VowelSignMap"%u, ["า"%u; [0xE34]%N; [0xE35]%N; [0xE38]%N; [0xE39]%N; [0xE3A; 0xE24]%N; [0xE3A; 0xE24; 0xE45]%N; [0xE3A; 0xE25; 0xE38; 0x2BD]%N;
    [0xE3A; 0xE25; 0xE39; 0x2BD]%N; "เ"%u; "ใ"%u; "โ"%u; "วฺʽ"%u]);
   ("SouthVowelSignMap"%u, ["เʽ"%u; "โʽ"%u]);
   ("ModernVowelSignMap"%u, ["แʽ"%u; "าʽ"%u]);
   ("SinhalaVowelSignMap"%u, ["แ"%u]);
   ("AyogavahaMap"%u, [[0xE4D; 0x2BD]%N; [0xE4D]%N; "หฺʽ"%u]);
   ("ViramaMap"%u, [[0xE3A]%N]);
   ("ConsonantMap"%u, ["ก"%u; "ข"%u; "ค"%u; "ฆ"%u; "ง"%u; "จ"%u; "ฉ"%u; "ช"%u;
    "ฌ"%u; "ญ"%u; "ฏ"%u; "ฐ"%u; "ฑ"%u; "ฒ"%u; "ณ"%u; "ต"%u;
    "ถ"%u; "ท"%u; "ธ"%u; "น"%u; "ป"%u; "ผ"%u; "พ"%u; "ภ"%u;
    "ม"%u; "ย"%u; "ร"%u; "ล"%u; "ว"%u; "สʽ"%u; "สʽ"%u; "ส"%u;
    "ห"%u]);
   ("SouthConsonantMap"%u, ["ฬ"%u; "ฬʽ"%u; "รʽ"%u; "นʽ"%u]);
   ("NuktaConsonantMap"%u, ["กʽ"%u; "ขʽ"%u; "คʽ"%u; "ชʽ"%u; "รʽ"%u; "รฺหʽ"%u; "ผʽ"%u; "ยʽ"%u]);
   ("SinhalaConsonantMap"%u, [[0xE4D; 0xE04; 0x2BD]%N; [0xE4D; 0xE0A; 0x2BD]%N; [0xE4D; 0xE11; 0x2BD]%N; [0xE4D; 0xE17; 0x2BD]%N; [0xE4D; 0xE1E; 0x2BD]%N]);
   ("NuktaMap"%u, ["ʽʽʽʽ"%u]);
   ("OmMap"%u, ["อโํ"%u]);
   ("SignMap"%u, ["ʽʽ"%u; "ฯ"%u; "๚"%u]);
   ("Aytham"%u, ["หฺʽʽ"%u]);
   ("NumeralMap"%u, ["๐"%u; "๑"%u; "๒"%u; "๓"%u; "๔"%u; "๕"%u; "๖"%u; "๗"%u;
    "๘"%u; "๙"%u])].

(** aksharamukha/ScriptMap/EastIndic/KhuenTham.py:7-173 *)
Definition S_EastIndic_KhuenTham : table :=
  [("VowelMap"%u, ["ᩋ"%u; "ᩋᩣ"%u; "ᩍ"%u; "ᩎ"%u; "ᩏ"%u; "ᩐ"%u; "ᩂ"%u; "ᩂᩣ"%u;
    "ᩄ"%u; "ᩄᩣ"%u; "ᩑ"%u; "ᩋᩱ"%u; "ᩒ"%u; "ᩏᩫᩣ"%u]);
   ("SouthVowelMap"%u, ["ᩑʽ"%u; "ᩒʽ"%u]);
   ("ModernVowelMap"%u, ["ᩑʽ"%u; "ᩋᩣʽ"%u]);
   ("SinhalaVowelMap"%u, ["ᩑʽ"%u]);
   ("VowelSignMap"%u, [[0x1A63]%N; [0x1A65]%N; [0x1A66]%N; [0x1A69]%N; [0x1A6A]%N; [0x1A7A; 0x1A42]%N; [0x1A7A; 0x1A42; 0x1A63]%N; [0x1A7A; 0x1A44]%N;
    [0x1A7A; 0x1A44; 0x1A63]%N; [0x1A6E]%N; [0x1A71]%N; [0x1A6E; 0x1A63]%N; [0x1A6E; 0x1A6B; 0x1A63]%N]);
   ("SouthVowelSignMap"%u, [[0x1A6E; 0x2BD]%N; [0x1A6E; 0x1A63; 0x2BD]%N]);
   ("ModernVowelSignMap"%u, [[0x1A6E; 0x2BD]%N; [0x1A63; 0x2BD]%N]);
   ("SinhalaVowelSignMap"%u, [[0x1A6E; 0x2BD]%N]);
   ("AyogavahaMap"%u, [[0x1A74; 0x2BD]%N; [0x1A74]%N; [0x1A61]%N]);
   ("ViramaMap"%u, [[0x1A7A]%N]);
   ("ConsonantMap"%u, ["ᨠ"%u; "ᨡ"%u; "ᨣ"%u; "ᨥ"%u; "ᨦ"%u; "ᨧ"%u; "ᨨ"%u; "ᨩ"%u;
    "ᨫ"%u; "ᨬ"%u; "ᨭ"%u; "ᨮ"%u; "ᨯ"%u; "ᨰ"%u; "ᨱ"%u; "ᨲ"%u;
    "ᨳ"%u; "ᨴ"%u; "ᨵ"%u; "ᨶ"%u; "ᨸ"%u; "ᨹ"%u; "ᨻ"%u; "ᨽ"%u;
    "ᨾ"%u; "ᨿ"%u; "ᩁ"%u; "ᩃ"%u; "ᩅ"%u; "ᩆ"%u; "ᩇ"%u; "ᩈ"%u;
    "ᩉ"%u]);
   ("SouthConsonantMap"%u, ["ᩊ"%u; "ᩊʽ"%u; "ᩁʽ"%u; "ᨶʽ"%u]);
   ("NuktaConsonantMap"%u, ["ᨠʽ"%u; "ᨡʽ"%u; "ᨣʽ"%u; "ᨩʽ"%u; "ᨯʽ"%u; "ᨰʽ"%u; "ᨹʽ"%u; "ᨿʽ"%u]);
   ("SinhalaConsonantMap"%u, [[0x1A74; 0x1A23; 0x2BD]%N; [0x1A74; 0x1A29; 0x2BD]%N; [0x1A74; 0x1A2F; 0x2BD]%N; [0x1A74; 0x1A34; 0x2BD]%N; [0x1A74; 0x1A3D; 0x2BD]%N]);
   ("NuktaMap"%u, ["ʽʽʽʽ"%u]);
   ("OmMap"%u, ["ᩒᩴ"%u]);
   ("SignMap"%u, ["'"%u; "᪨"%u; "᪩"%u]);
   ("Aytham"%u, [[0x1A61; 0x2BD]%N]);
   ("NumeralMap"%u, ["᪐"%u; "᪑"%u; "᪒"%u; "᪓"%u; "᪔"%u; "᪕"%u; "᪖"%u; "᪗"%u;
    "᪘"%u; "᪙"%u])].

(** aksharamukha/ScriptMap/EastIndic/Lao.py:9-175 *)
Definition S_EastIndic_Lao : table :=
  [("VowelMap"%u, ["ອ"%u; "ອາ"%u; "ອິ"%u; "ອີ"%u; "ອຸ"%u; "ອູ"%u; "ຣຸʽ"%u; "ຣູʽ"%u;
    "ລຸʽ"%u; "ລູʽ"%u; "ອເ"%u; "ອໄ"%u; "ອໂ"%u; "ອເົາ"%u]);
   ("SouthVowelMap"%u, ["ອເະ"%u; "ອໂະ"%u]);
   ("ModernVowelMap"%u, ["ອແະ"%u; "ອເາະ"%u]);
   ("SinhalaVowelMap"%u, ["ອແ"%u]);
   ("VowelSignMap"%u, ["າ"%u; [0xEB4]%N; [0xEB5]%N; [0xEB8]%N; [0xEB9]%N; [0xEBA; 0xEA3; 0xEB8; 0x2BD]%N; [0xEBA; 0xEA3; 0xEB9; 0x2BD]%N; [0xEBA; 0xEA5; 0xEB8; 0x2BD]%N;
    [0xEBA; 0xEA5; 0xEB9; 0x2BD]%N; "ເ"%u; "ໄ"%u; "ໂ"%u; "ເົາ"%u]);
   ("SouthVowelSignMap"%u, ["ເະ"%u; "ໂະ"%u]);
   ("ModernVowelSignMap"%u, ["ແະ"%u; "ເາະ"%u]);
   ("SinhalaVowelSignMap"%u, ["ແ"%u]);
   ("AyogavahaMap"%u, [[0xECD; 0x2BD]%N; [0xECD]%N; "ຫ຺ʽ"%u]);
   ("ViramaMap"%u, [[0xEBA]%N]);
   ("ConsonantMap"%u, ["ກ"%u; "ຂ"%u; "ຄ"%u; "ຄʽ"%u; "ງ"%u; "ຈ"%u; "ຈʽ"%u; "ຊ"%u;
    "ຊʽ"%u; "ຍ"%u; "ຕʽ"%u; "ຖʽ"%u; "ທʽ"%u; "ທʽ"%u; "ນʽ"%u; "ຕ"%u;
    "ຖ"%u; "ທ"%u; "ທʽ"%u; "ນ"%u; "ປ"%u; "ຜ"%u; "ພ"%u; "ພʽ"%u;
    "ມ"%u; "ຢ"%u; "ຣ"%u; "ລ"%u; "ວ"%u; "ສʽ"%u; "ສʽ"%u; "ສ"%u;
    "ຫ"%u]);
   ("SouthConsonantMap"%u, ["ລʽ"%u; "ລʽ"%u; "ຮ"%u; "ນʽ"%u]);
   ("NuktaConsonantMap"%u, ["ກʽ"%u; "ຂʽ"%u; "ຄʽ"%u; "ຊʽ"%u; "ທʽ"%u; "ທʽ"%u; "ຝ"%u; "ຢʽ"%u]);
   ("SinhalaConsonantMap"%u, [[0xECD; 0xE84; 0x2BD]%N; [0xECD; 0xE8A; 0x2BD]%N; [0xECD; 0xE97; 0x2BD]%N; [0xECD; 0xE97; 0x2BD]%N; [0xECD; 0xE9E; 0x2BD]%N]);
   ("NuktaMap"%u, [[0xEB0A]%N]);
   ("OmMap"%u, ["ໂອງ຺"%u]);
   ("SignMap"%u, ["'"%u; "ຯ"%u; "ຯຯ"%u]);
   ("Aytham"%u, ["ຫ຺ʽʽ"%u]);
   ("NumeralMap"%u, ["໐"%u; "໑"%u; "໒"%u; "໓"%u; "໔"%u; "໕"%u; "໖"%u; "໗"%u;
    "໘"%u; "໙"%u])].

(** aksharamukha/ScriptMap/EastIndic/Lao2.py:9-175 *)
Definition S_EastIndic_Lao2 : table :=
  [("VowelMap"%u, ["ອ"%u; "ອາ"%u; "ອິ"%u; "ອີ"%u; "ອຸ"%u; "ອູ"%u; "ຣຸʽ"%u; "ຣູʽ"%u;
    "ລຸʽ"%u; "ລູʽ"%u; "ເອ"%u; "ໄອ"%u; "ໂອ"%u; "ເອົາ"%u]);
   ("SouthVowelMap"%u, ["ເອະ"%u; "ໂອະ"%u]);
   ("ModernVowelMap"%u, ["ແອະ"%u; "ເອາະ"%u]);
   ("SinhalaVowelMap"%u, ["ແອ"%u]);
   ("VowelSignMap"%u, ["າ"%u; [0xEB4]%N; [0xEB5]%N; [0xEB8]%N; [0xEB9]%N; [0xEBA; 0xEA3; 0xEB8; 0x2BD]%N; [0xEBA; 0xEA3; 0xEB9; 0x2BD]%N; [0xEBA; 0xEA5; 0xEB8; 0x2BD]%N;
    [0xEBA; 0xEA5; 0xEB9; 0x2BD]%N; "ເ"%u; "ໄ"%u; "ໂ"%u; "ເົາ"%u]);
   ("SouthVowelSignMap"%u, ["ເະ"%u; "ໂະ"%u]);
   ("ModernVowelSignMap"%u, ["ແະ"%u; "ເາະ"%u]);
   ("SinhalaVowelSignMap"%u, ["ແ"%u]);
   ("AyogavahaMap"%u, [[0xECD; 0x2BD]%N; [0xECD]%N; "ຫ຺ʽ"%u]);
   ("ViramaMap"%u, [[0xEBA]%N]);
   ("ConsonantMap"%u, ["ກ"%u; "ຂ"%u; "ຄ"%u; "ຄʽ"%u; "ງ"%u; "ຈ"%u; "ສ"%u; "ຊ"%u;
    "ຊʽ"%u; "ຍ"%u; "ຕʽ"%u; "ຖʽ"%u; "ທʽ"%u; "ທʽ"%u; "ນʽ"%u; "ຕ"%u;
    "ຖ"%u; "ທ"%u; "ທʽ"%u; "ນ"%u; "ປ"%u; "ຜ"%u; "ພ"%u; "ພʽ"%u;
    "ມ"%u; "ຍ"%u; "ຣ"%u; "ລ"%u; "ວ"%u; "ສʽ"%u; "ສʽ"%u; "ສ"%u;
    "ຫ"%u]);
   ("SouthConsonantMap"%u, ["ລʽ"%u; "ລʽ"%u; "ຮ"%u; "ນʽ"%u]);
   ("NuktaConsonantMap"%u, ["ກʽ"%u; "ຂʽ"%u; "ຄʽ"%u; "ຊʽ"%u; "ດʽ"%u; "ທʽ"%u; "ຝ"%u; "ຢʽ"%u]);
   ("SinhalaConsonantMap"%u, [[0xECD; 0xE84; 0x2BD]%N; [0xECD; 0xE8A; 0x2BD]%N; [0xECD; 0xE97; 0x2BD]%N; [0xECD; 0xE97; 0x2BD]%N; [0xECD; 0xE9E; 0x2BD]%N]);
   ("NuktaMap"%u, [[0xEB0A]%N]);
   ("OmMap"%u, ["ໂອງ຺"%u]);
   ("SignMap"%u, ["'"%u; "ຯ"%u; "ຯຯ"%u]);
   ("Aytham"%u, ["ຫ຺ʽʽ"%u]);
   ("NumeralMap"%u, ["໐"%u; "໑"%u; "໒"%u; "໓"%u; "໔"%u; "໕"%u; "໖"%u; "໗"%u;
    "໘"%u; "໙"%u])].

(** aksharamukha/ScriptMap/EastIndic/LaoPali.py:5-171 *)
Definition S_EastIndic_LaoPali : table :=
  [("VowelMap"%u, ["ອ"%u; "ອາ"%u; "ອິ"%u; "ອີ"%u; "ອຸ"%u; "ອູ"%u; "ຣຸʽ"%u; "ຣູʽ"%u;
    "ລຸʽ"%u; "ລູʽ"%u; "ອເ"%u; "ອໄ"%u; "ອໂ"%u; "ອເົາ"%u]);
   ("SouthVowelMap"%u, ["ອເະ"%u; "ອໂະ"%u]);
   ("ModernVowelMap"%u, ["ອແະ"%u; "ອເາະ"%u]);
   ("SinhalaVowelMap"%u, ["ອແ"%u]);
   ("VowelSignMap"%u, ["າ"%u; [0xEB4]%N; [0xEB5]%N; [0xEB8]%N; [0xEB9]%N; [0xEBA; 0xEA3; 0xEB8; 0x2BD]%N; [0xEBA; 0xEA3; 0xEB9; 0x2BD]%N; [0xEBA; 0xEA5; 0xEB8; 0x2BD]%N;
    [0xEBA; 0xEA5; 0xEB9; 0x2BD]%N; "ເ"%u; "ໄ"%u; "ໂ"%u; "ເົາ"%u]);
   ("SouthVowelSignMap"%u, ["ເະ"%u; "ໂະ"%u]);
   ("ModernVowelSignMap"%u, ["ແະ"%u; "ເາະ"%u]);
   ("SinhalaVowelSignMap"%u, ["ແ"%u]);
   ("AyogavahaMap"%u, [[0xECD; 0x2BD]%N; [0xECD]%N; "ຫ໌"%u]);
   ("ViramaMap"%u, [[0xEBA]%N]);
   ("ConsonantMap"%u, ["ກ"%u; "ຂ"%u; "ຄ"%u; "ຆ"%u; "ງ"%u; "ຈ"%u; "ຉ"%u; "ຊ"%u;
    "ຌ"%u; "ຎ"%u; "ຏ"%u; "ຐ"%u; "ຑ"%u; "ຒ"%u; "ຓ"%u; "ຕ"%u;
    "ຖ"%u; "ທ"%u; "ຘ"%u; "ນ"%u; "ປ"%u; "ຜ"%u; "ພ"%u; "ຠ"%u;
    "ມ"%u; "ຍ"%u; "ຣ"%u; "ລ"%u; "ວ"%u; "ຨ"%u; "ຩ"%u; "ສ"%u;
    "ຫ"%u]);
   ("SouthConsonantMap"%u, ["ຬ"%u; "ຬʽ"%u; "ຮ"%u; "ນʽ"%u]);
   ("NuktaConsonantMap"%u, ["ກʽ"%u; "ຂʽ"%u; "ຄʽ"%u; "ຊʽ"%u; "ຐʽ"%u; "ຑʽ"%u; "ຝ"%u; "ຢ"%u]);
   ("SinhalaConsonantMap"%u, [[0xECD; 0xE84; 0x2BD]%N; [0xECD; 0xE8A; 0x2BD]%N; [0xECD; 0xE90; 0x2BD]%N; [0xECD; 0xE97; 0x2BD]%N; [0xECD; 0xE9E; 0x2BD]%N]);
   ("NuktaMap"%u, ["ʽʽʽʽ"%u]);
   ("OmMap"%u, ["ໂອໍʽ"%u]);
   ("SignMap"%u, ["'"%u; "ຯ"%u; "ຯຯ"%u]);
   ("Aytham"%u, ["ຫ໌ʽ"%u]);
   ("NumeralMap"%u, ["໐"%u; "໑"%u; "໒"%u; "໓"%u; "໔"%u; "໕"%u; "໖"%u; "໗"%u;
    "໘"%u; "໙"%u])].

(** aksharamukha/ScriptMap/EastIndic/LaoTham.py:7-173 *)
Definition S_EastIndic_LaoTham : table :=
  [("VowelMap"%u, ["ᩋ"%u; "ᩋᩣ"%u; "ᩍ"%u; "ᩎ"%u; "ᩏ"%u; "ᩐ"%u; "ᩂ"%u; "ᩂᩣ"%u;
    "ᩄ"%u; "ᩄᩣ"%u; "ᩑ"%u; "ᩋᩱ"%u; "ᩒ"%u; "ᩏᩫᩣ"%u]);
   ("SouthVowelMap"%u, ["ᩑʽ"%u; "ᩒʽ"%u]);
   ("ModernVowelMap"%u, ["ᩑʽ"%u; "ᩋᩣʽ"%u]);
   ("SinhalaVowelMap"%u, ["ᩑʽ"%u]);
   ("VowelSignMap"%u, [[0x1A63]%N; [0x1A65]%N; [0x1A66]%N; [0x1A69]%N; [0x1A6A]%N; [0x1A7A; 0x1A42]%N; [0x1A7A; 0x1A42; 0x1A63]%N; [0x1A7A; 0x1A44]%N;
    [0x1A7A; 0x1A44; 0x1A63]%N; [0x1A6E]%N; [0x1A71]%N; [0x1A6E; 0x1A63]%N; [0x1A6E; 0x1A6B; 0x1A63]%N]);
   ("SouthVowelSignMap"%u, [[0x1A6E; 0x2BD]%N; [0x1A6E; 0x1A63; 0x2BD]%N]);
   ("ModernVowelSignMap"%u, [[0x1A6E; 0x2BD]%N; [0x1A63; 0x2BD]%N]);
   ("SinhalaVowelSignMap"%u, [[0x1A6E; 0x2BD]%N]);
   ("AyogavahaMap"%u, [[0x1A74; 0x2BD]%N; [0x1A74]%N; [0x1A61]%N]);
   ("ViramaMap"%u, [[0x1A7A]%N]);
   ("ConsonantMap"%u, ["ᨠ"%u; "ᨡ"%u; "ᨣ"%u; "ᨥ"%u; "ᨦ"%u; "ᨧ"%u; "ᨨ"%u; "ᨩ"%u;
    "ᨫ"%u; "ᨬ"%u; "ᨭ"%u; "ᨮ"%u; "ᨯ"%u; "ᨰ"%u; "ᨱ"%u; "ᨲ"%u;
    "ᨳ"%u; "ᨴ"%u; "ᨵ"%u; "ᨶ"%u; "ᨸ"%u; "ᨹ"%u; "ᨻ"%u; "ᨽ"%u;
    "ᨾ"%u; "ᨿ"%u; "ᩁ"%u; "ᩃ"%u; "ᩅ"%u; "ᩆ"%u; "ᩇ"%u; "ᩈ"%u;
    "ᩉ"%u]);
   ("SouthConsonantMap"%u, ["ᩊ"%u; "ᩊʽ"%u; "ᩁʽ"%u; "ᨶʽ"%u]);
   ("NuktaConsonantMap"%u, ["ᨠʽ"%u; "ᨡʽ"%u; "ᨣʽ"%u; "ᨩʽ"%u; "ᨯʽ"%u; "ᨰʽ"%u; "ᨹʽ"%u; "ᨿʽ"%u]);
   ("SinhalaConsonantMap"%u, [[0x1A74; 0x1A23; 0x2BD]%N; [0x1A74; 0x1A29; 0x2BD]%N; [0x1A74; 0x1A2F; 0x2BD]%N; [0x1A74; 0x1A34; 0x2BD]%N; [0x1A74; 0x1A3D; 0x2BD]%N]);
   ("NuktaMap"%u, ["ʽʽʽʽ"%u]);
   ("OmMap"%u, ["ᩒᩴ"%u]);
   ("SignMap"%u, ["'"%u; "᪨"%u; "᪩"%u]);
   ("Aytham"%u, [[0x1A61; 0x2BD]%N]);
   ("NumeralMap"%u, ["᪐"%u; "᪑"%u; "᪒"%u; "᪓"%u; "᪔"%u; "᪕"%u; "᪖"%u; "᪗"%u;
    "᪘"%u; "᪙"%u])].

(** aksharamukha/ScriptMap/EastIndic/LueTham.py:7-173 *)
Definition S_EastIndic_LueTham : table :=
  [("VowelMap"%u, ["ᩋ"%u; "ᩋᩣ"%u; "ᩍ"%u; "ᩎ"%u; "ᩏ"%u; "ᩐ"%u; "ᩂ"%u; "ᩂᩣ"%u;
    "ᩄ"%u; "ᩄᩣ"%u; "ᩑ"%u; "ᩋᩱ"%u; "ᩒ"%u; "ᩏᩫᩣ"%u]);
   ("SouthVowelMap"%u, ["ᩑʽ"%u; "ᩒʽ"%u]);
   ("ModernVowelMap"%u, ["ᩑʽ"%u; "ᩋᩣʽ"%u]);
   ("SinhalaVowelMap"%u, ["ᩑʽ"%u]);
   ("VowelSignMap"%u, [[0x1A63]%N; [0x1A65]%N; [0x1A66]%N; [0x1A69]%N; [0x1A6A]%N; [0x1A7A; 0x1A42]%N; [0x1A7A; 0x1A42; 0x1A63]%N; [0x1A7A; 0x1A44]%N;
    [0x1A7A; 0x1A44; 0x1A63]%N; [0x1A6E]%N; [0x1A71]%N; [0x1A6E; 0x1A63]%N; [0x1A6E; 0x1A6B; 0x1A63]%N]);
   ("SouthVowelSignMap"%u, [[0x1A6E; 0x2BD]%N; [0x1A6E; 0x1A63; 0x2BD]%N]);
   ("ModernVowelSignMap"%u, [[0x1A6E; 0x2BD]%N; [0x1A63; 0x2BD]%N]);
   ("SinhalaVowelSignMap"%u, [[0x1A6E; 0x2BD]%N]);
   ("AyogavahaMap"%u, [[0x1A74; 0x2BD]%N; [0x1A74]%N; [0x1A61]%N]);
   ("ViramaMap"%u, [[0x1A7A]%N]);
   ("ConsonantMap"%u, ["ᨠ"%u; "ᨡ"%u; "ᨣ"%u; "ᨥ"%u; "ᨦ"%u; "ᨧ"%u; "ᨨ"%u; "ᨩ"%u;
    "ᨫ"%u; "ᨬ"%u; "ᨭ"%u; "ᨮ"%u; "ᨯ"%u; "ᨰ"%u; "ᨱ"%u; "ᨲ"%u;
    "ᨳ"%u; "ᨴ"%u; "ᨵ"%u; "ᨶ"%u; "ᨸ"%u; "ᨹ"%u; "ᨻ"%u; "ᨽ"%u;
    "ᨾ"%u; "ᨿ"%u; "ᩁ"%u; "ᩃ"%u; "ᩅ"%u; "ᩆ"%u; "ᩇ"%u; "ᩈ"%u;
    "ᩉ"%u]);
   ("SouthConsonantMap"%u, ["ᩊ"%u; "ᩊʽ"%u; "ᩁʽ"%u; "ᨶʽ"%u]);
   ("NuktaConsonantMap"%u, ["ᨠʽ"%u; "ᨡʽ"%u; "ᨣʽ"%u; "ᨩʽ"%u; "ᨯʽ"%u; "ᨰʽ"%u; "ᨹʽ"%u; "ᨿʽ"%u]);
   ("SinhalaConsonantMap"%u, [[0x1A74; 0x1A23; 0x2BD]%N; [0x1A74; 0x1A29; 0x2BD]%N; [0x1A74; 0x1A2F; 0x2BD]%N; [0x1A74; 0x1A34; 0x2BD]%N; [0x1A74; 0x1A3D; 0x2BD]%N]);
   ("NuktaMap"%u, ["ʽʽʽʽ"%u]);
   ("OmMap"%u, ["ᩒᩴ"%u]);
   ("SignMap"%u, ["'"%u; "᪨"%u; "᪩"%u]);
   ("Aytham"%u, [[0x1A61; 0x2BD]%N]);
   ("NumeralMap"%u, ["᪐"%u; "᪑"%u; "᪒"%u; "᪓"%u; "᪔"%u; "᪕"%u; "᪖"%u; "᪗"%u;
    "᪘"%u; "᪙"%u])].

(** aksharamukha/ScriptMap/EastIndic/Makasar.py:5-170 *)
Definition S_EastIndic_Makasar : table :=
  [("VowelMap"%u, ["𑻱"%u; "𑻱ʽ"%u; "𑻱𑻳"%u; "𑻱𑻳ʽ"%u; "𑻱𑻴"%u; "𑻱𑻴ʽ"%u; "𑻭𑻴ʽ"%u; "𑻭𑻴ʽ"%u;
    "𑻮𑻴ʽ"%u; "𑻮𑻴ʽ"%u; "𑻱𑻵ʽ"%u; "𑻱𑻱𑻳ʽ"%u; "𑻱𑻶ʽ"%u; "𑻱𑻱𑻴ʽ"%u]);
   ("SouthVowelMap"%u, ["𑻱𑻵"%u; "𑻱𑻶"%u]);
   ("ModernVowelMap"%u, ["𑻱𑻵ʽ"%u; "𑻱ʽ"%u]);
   ("SinhalaVowelMap"%u, ["𑻱ʽ"%u]);
   ("VowelSignMap"%u, ["ʽʽ"%u; [0x11EF3]%N; [0x11EF3; 0x2BD]%N; [0x11EF4]%N; [0x11EF4; 0x2BD]%N; "𑻭𑻴ʽ"%u; "𑻭𑻴ʽ"%u; "𑻮𑻴ʽ"%u;
    "𑻮𑻴ʽ"%u; [0x11EF5; 0x2BD]%N; "𑻱𑻳ʽ"%u; [0x11EF6; 0x2BD]%N; "𑻱𑻴ʽ"%u]);
   ("SouthVowelSignMap"%u, [[0x11EF5]%N; [0x11EF6]%N]);
   ("ModernVowelSignMap"%u, [[0x11EF5; 0x2BD]%N; "ʽʽʽ"%u]);
   ("SinhalaVowelSignMap"%u, [[0x11EF5; 0x2BD]%N]);
   ("AyogavahaMap"%u, ["𑻥ʽ"%u; "𑻥ʽ"%u; "ʽʽʽ"%u]);
   ("ViramaMap"%u, ["ʾ"%u]);
   ("ConsonantMap"%u, ["𑻠"%u; "𑻠ʽ"%u; "𑻡"%u; "𑻡ʽ"%u; "𑻢"%u; "𑻩"%u; "𑻩ʽ"%u; "𑻪"%u;
    "𑻪ʽ"%u; "𑻫"%u; "𑻦ʽ"%u; "𑻦ʽ"%u; "𑻧ʽ"%u; "𑻧ʽ"%u; "𑻨ʽ"%u; "𑻦"%u;
    "𑻦ʽ"%u; "𑻧"%u; "𑻧ʽ"%u; "𑻨"%u; "𑻣"%u; "𑻣ʽ"%u; "𑻤"%u; "𑻤ʽ"%u;
    "𑻥"%u; "𑻬"%u; "𑻭"%u; "𑻮"%u; "𑻯"%u; "𑻰ʽ"%u; "𑻰ʽ"%u; "𑻰"%u;
    "𑻠ʽ"%u]);
   ("SouthConsonantMap"%u, ["𑻮ʽ"%u; "𑻮ʽ"%u; "𑻭ʽ"%u; "𑻨ʽ"%u]);
   ("NuktaConsonantMap"%u, ["𑻠ʽ"%u; "𑻠ʽ"%u; "𑻡ʽ"%u; "𑻪ʽ"%u; "𑻧ʽ"%u; "𑻧ʽ"%u; "𑻣ʽ"%u; "𑻬ʽ"%u]);
   ("SinhalaConsonantMap"%u, ["𑻥𑻡ʽ"%u; "𑻥𑻪ʽ"%u; "𑻥𑻧ʽ"%u; "𑻥𑻧ʽ"%u; "𑻥𑻤ʽ"%u]);
   ("NuktaMap"%u, ["ʽʽʽʽ"%u]);
   ("OmMap"%u, ["𑻱𑻶𑻥ʽ"%u]);
   ("SignMap"%u, ["ʽʽ"%u; "𑻷"%u; "𑻷𑻷"%u]);
   ("Aytham"%u, ["ʽʽʽʼ"%u]);
   ("NumeralMap"%u, ["۰"%u; "۱"%u; "۲"%u; "۳"%u; "۴"%u; "۵"%u; "۶"%u; "۷"%u;
    "۸"%u; "۹"%u])].

(** aksharamukha/ScriptMap/EastIndic/Marchen.py:5-171 *)
Definition S_EastIndic_Marchen : table :=
  [("VowelMap"%u, ["𑲏"%u; "𑲏𑲰"%u; "𑲏𑲱"%u; "𑲏𑲱𑲰"%u; "𑲏𑲲"%u; "𑲏𑲲𑲰"%u; "𑲊𑲱ʽ"%u; "𑲊𑲱𑲰ʽ"%u;
    "𑲋𑲱ʽ"%u; "𑲋𑲱𑲰ʽ"%u; "𑲏𑲳"%u; "𑲏𑲳𑲰"%u; "𑲏𑲴"%u; "𑲏𑲰𑲴"%u]);
   ("SouthVowelMap"%u, ["𑲏𑲳ʽ"%u; "𑲏𑲴ʽ"%u]);
   ("ModernVowelMap"%u, ["𑲏𑲳ʽ"%u; "𑲏𑲰ʽ"%u]);
   ("SinhalaVowelMap"%u, ["𑲏𑲳ʽ"%u]);
   ("VowelSignMap"%u, [[0x11CB0]%N; [0x11CB1]%N; [0x11CB1; 0x11CB0]%N; [0x11CB2]%N; [0x11CB2; 0x11CB0]%N; [0x11CAA; 0x11CB1; 0x2BD]%N; [0x11CAA; 0x11CB1; 0x11CB0; 0x2BD]%N; [0x11CAB; 0x11CB1; 0x2BD]%N;
    [0x11CAB; 0x11CB1; 0x11CB0; 0x2BD]%N; [0x11CB3]%N; [0x11CB3; 0x11CB0]%N; [0x11CB4]%N; [0x11CB0; 0x11CB4]%N]);
   ("SouthVowelSignMap"%u, [[0x11CB3; 0x2BD]%N; [0x11CB4; 0x2BD]%N]);
   ("ModernVowelSignMap"%u, [[0x11CB3; 0x2BD]%N; [0x11CB0; 0x2BD]%N]);
   ("SinhalaVowelSignMap"%u, [[0x11CB3; 0x2BD]%N]);
   ("AyogavahaMap"%u, [[0x11CB6]%N; [0x11CB5]%N; "𑲎ʽ"%u]);
   ("ViramaMap"%u, ["ʾ"%u]);
   ("ConsonantMap"%u, ["𑱲"%u; "𑱳"%u; "𑱴"%u; "𑱴ʿ𑲮"%u; "𑱵"%u; "𑲂"%u; "𑲃"%u; "𑲄"%u;
    "𑲄ʿ𑲮"%u; "𑱹"%u; "𑱺ʽ"%u; "𑱻ʽ"%u; "𑱼ʽ"%u; "𑱼𑲮ʽ"%u; "𑱽ʽ"%u; "𑱺"%u;
    "𑱻"%u; "𑱼"%u; "𑱼ʿ𑲮"%u; "𑱽"%u; "𑱾"%u; "𑱿"%u; "𑲀"%u; "𑲀ʿ𑲮"%u;
    "𑲁"%u; "𑲉"%u; "𑲊"%u; "𑲋"%u; "𑲅"%u; "𑲌"%u; "𑲌ʽ"%u; "𑲍"%u;
    "𑲎"%u]);
   ("SouthConsonantMap"%u, ["𑲋ʽ"%u; "𑲋ʽ"%u; "𑲊ʽ"%u; "𑱽ʽ"%u]);
   ("NuktaConsonantMap"%u, ["𑱲ʽ"%u; "𑱳ʽ"%u; "𑱴ʽ"%u; "𑲇"%u; "𑱼ʽ"%u; "𑱼𑲮ʽ"%u; "𑱿ʽ"%u; "𑲉ʽ"%u]);
   ("SinhalaConsonantMap"%u, [[0x11CB6; 0x11C74; 0x2BD]%N; [0x11CB6; 0x11C84; 0x2BD]%N; [0x11CB6; 0x11C7C; 0x2BD]%N; [0x11CB6; 0x11C7C; 0x2BD]%N; [0x11CB6; 0x11C80; 0x2BD]%N]);
   ("NuktaMap"%u, ["ʽʽ"%u]);
   ("OmMap"%u, ["𑲏𑲴𑲶"%u]);
   ("SignMap"%u, ["ʽʽʽ"%u; "𑱱"%u; "𑱱𑱱"%u]);
   ("Aytham"%u, ["𑲎ʽʽ"%u]);
   ("NumeralMap"%u, ["༠"%u; "༡"%u; "༢"%u; "༣"%u; "༤"%u; "༥"%u; "༦"%u; "༧"%u;
    "༨"%u; "༩"%u])].

(** aksharamukha/ScriptMap/EastIndic/Mon.py:5-171 *)
Definition S_EastIndic_Mon : table :=
  [("VowelMap"%u, ["အ"%u; "အာ"%u; "ဣ"%u; "ဣဳ"%u; "ဥ"%u; "ဥူ"%u; "ၒ"%u; "ၓ"%u;
    "ၔ"%u; "ၕ"%u; "ဨ"%u; "အဲ"%u; "ဩ"%u; "ဪ"%u]);
   ("SouthVowelMap"%u, ["ဨʽ"%u; "ဩʽ"%u]);
   ("ModernVowelMap"%u, ["ဨʽ"%u; "အာʽ"%u]);
   ("SinhalaVowelMap"%u, ["ဨʽ"%u]);
   ("VowelSignMap"%u, [[0x102C]%N; [0x102D]%N; [0x1033]%N; [0x102F]%N; [0x1030]%N; [0x1056]%N; [0x1057]%N; [0x1058]%N;
    [0x1059]%N; [0x1031]%N; [0x1032]%N; [0x1031; 0x102C]%N; [0x1031; 0x102C; 0x103A]%N]);
   ("SouthVowelSignMap"%u, [[0x1031; 0x2BD]%N; [0x1031; 0x102C; 0x2BD]%N]);
   ("ModernVowelSignMap"%u, [[0x1031; 0x2BD]%N; [0x102C; 0x2BD]%N]);
   ("SinhalaVowelSignMap"%u, [[0x1031; 0x2BD]%N]);
   ("AyogavahaMap"%u, [[0x1036; 0x2BD]%N; [0x1036]%N; [0x1038]%N]);
   ("ViramaMap"%u, [[0x103A]%N]);
   ("ConsonantMap"%u, ["က"%u; "ခ"%u; "ဂ"%u; "ဃ"%u; "ၚ"%u; "စ"%u; "ဆ"%u; "ဇ"%u;
    "ၛ"%u; "ည"%u; "ဋ"%u; "ဌ"%u; "ဍ"%u; "ဎ"%u; "ဏ"%u; "တ"%u;
    "ထ"%u; "ဒ"%u; "ဓ"%u; "န"%u; "ပ"%u; "ဖ"%u; "ဗ"%u; "ဘ"%u;
    "မ"%u; "ယ"%u; "ရ"%u; "လ"%u; "ဝ"%u; "ၐ"%u; "ၑ"%u; "သ"%u;
    "ဟ"%u]);
   ("SouthConsonantMap"%u, ["ဠ"%u; "ဠʽ"%u; "ရʽ"%u; "နʽ"%u]);
   ("NuktaConsonantMap"%u, ["ကʽ"%u; "ခʽ"%u; "ဂʽ"%u; "ဇʽ"%u; "ဍʽ"%u; "ဎʽ"%u; "ဖʽ"%u; "ယʽ"%u]);
   ("SinhalaConsonantMap"%u, [[0x1036; 0x1002; 0x2BD]%N; [0x1036; 0x1007; 0x2BD]%N; [0x1036; 0x100D; 0x2BD]%N; [0x1036; 0x1012; 0x2BD]%N; [0x1036; 0x1017; 0x2BD]%N]);
   ("NuktaMap"%u, ["ʽʽʽʽ"%u]);
   ("OmMap"%u, ["ဥုံ"%u]);
   ("SignMap"%u, ["'"%u; "၊"%u; "။"%u]);
   ("Aytham"%u, [[0x1038; 0x2BD]%N]);
   ("NumeralMap"%u, ["၀"%u; "၁"%u; "၂"%u; "၃"%u; "၄"%u; "၅"%u; "၆"%u; "၇"%u;
    "၈"%u; "၉"%u])].

(** aksharamukha/ScriptMap/EastIndic/Pallava.py:5-171 *)
Definition S_EastIndic_Pallava : table :=
  [("VowelMap"%u, ["ꦄ"%u; "ꦄꦴ"%u; "ꦆ"%u; "ꦇ"%u; "ꦈ"%u; "ꦈꦴ"%u; "ꦫꦶʽ"%u; "ꦫꦷʽ"%u;
    "ꦭꦶʽ"%u; "ꦭꦷʽ"%u; "ꦌ"%u; "ꦍ"%u; "ꦎ"%u; "ꦎꦴ"%u]);
   ("SouthVowelMap"%u, ["ꦌʽ"%u; "ꦎʽ"%u]);
   ("ModernVowelMap"%u, ["ꦌʽ"%u; "ꦄꦴʽ"%u]);
   ("SinhalaVowelMap"%u, ["ꦌʽ"%u]);
   ("VowelSignMap"%u, [[0xA9B4]%N; [0xA9B6]%N; [0xA9B7]%N; [0xA9B8]%N; [0xA9B9]%N; [0xA9C0; 0xA9AB; 0xA9B6; 0x2BD]%N; [0xA9C0; 0xA9AB; 0xA9B7; 0x2BD]%N; [0xA9C0; 0xA9AD; 0xA9B6; 0x2BD]%N;
    [0xA9C0; 0xA9AD; 0xA9B7; 0x2BD]%N; [0xA9BA]%N; [0xA9BB]%N; [0xA9BA; 0xA9B4]%N; [0xA9BB; 0xA9B4]%N]);
   ("SouthVowelSignMap"%u, [[0xA9BA; 0x2BD]%N; [0xA9BA; 0xA9B4; 0x2BD]%N]);
   ("ModernVowelSignMap"%u, [[0xA9BA; 0x2BD]%N; [0xA9B4; 0x2BD]%N]);
   ("SinhalaVowelSignMap"%u, [[0xA9BA; 0x2BD]%N]);
   ("AyogavahaMap"%u, [[0xA981; 0x2BD]%N; [0xA981]%N; [0xA983]%N]);
   ("ViramaMap"%u, [[0xA9C0]%N]);
   ("ConsonantMap"%u, ["ꦏ"%u; "ꦑ"%u; "ꦒ"%u; "ꦓ"%u; "ꦔ"%u; "ꦕ"%u; "ꦖ"%u; "ꦗ"%u;
    "ꦙ"%u; "ꦚ"%u; "ꦛ"%u; "ꦜ"%u; "ꦝ"%u; "ꦞ"%u; "ꦟ"%u; "ꦠ"%u;
    "ꦡ"%u; "ꦢ"%u; "ꦣ"%u; "ꦤ"%u; "ꦥ"%u; "ꦦ"%u; "ꦧ"%u; "ꦨ"%u;
    "ꦩ"%u; "ꦪ"%u; "ꦫ"%u; "ꦭ"%u; "ꦮ"%u; "ꦯ"%u; "ꦰ"%u; "ꦱ"%u;
    "ꦲ"%u]);
   ("SouthConsonantMap"%u, ["ꦭʽ"%u; "ꦰʽ"%u; "ꦫʽ"%u; "ꦤʽ"%u]);
   ("NuktaConsonantMap"%u, ["ꦏʽ"%u; "ꦑʽ"%u; "ꦒʽ"%u; "ꦗʽ"%u; "ꦝʽ"%u; "ꦞʽ"%u; "ꦦʽ"%u; "ꦪʽ"%u]);
   ("SinhalaConsonantMap"%u, [[0xA981; 0xA992; 0x2BD]%N; [0xA981; 0xA997; 0x2BD]%N; [0xA981; 0xA99D; 0x2BD]%N; [0xA981; 0xA9A2; 0x2BD]%N; [0xA981; 0xA9A7; 0x2BD]%N]);
   ("NuktaMap"%u, ["ʽʽ"%u]);
   ("OmMap"%u, ["ꦎꦁ"%u]);
   ("SignMap"%u, ["'"%u; "|"%u; "||"%u]);
   ("Aytham"%u, [[0xA983; 0x2BD]%N]);
   ("NumeralMap"%u, ["0"%u; "1"%u; "2"%u; "3"%u; "4"%u; "5"%u; "6"%u; "7"%u;
    "8"%u; "9"%u])].

(** aksharamukha/ScriptMap/EastIndic/PhagsPa.py:7-170 *)
Definition S_EastIndic_PhagsPa : table :=
  [("VowelMap"%u, ["ṿꡝ"%u; "ṿꡝꡖ"%u; "ṿꡞ"%u; "ṿꡞꡖ"%u; "ṿꡟ"%u; "ṿꡟꡖ"%u; "ṿꡘꡞʽ"%u; "ṿꡘꡖꡞʽ"%u;
    "ṿꡙꡞʽ"%u; "ṿꡙꡖꡞʽ"%u; "ṿꡠ"%u; "ṿꡠꡖ"%u; "ṿꡡ"%u; "ṿꡡꡖ"%u]);
   ("SouthVowelMap"%u, ["ꡠʽ"%u; "ꡡʽ"%u]);
   ("ModernVowelMap"%u, ["ꡠʽ"%u; "ꡝꡖʽ"%u]);
   ("SinhalaVowelMap"%u, ["ꡠʽ"%u]);
   ("VowelSignMap"%u, ["ꡖ"%u; "ꡞ"%u; "ꡖꡞ"%u; "ꡟ"%u; "ꡖꡟ"%u; "ꡱꡞ"%u; "ꡖꡱꡞʽ"%u; "ʾꡙꡞʽ"%u;
    "ʾꡙꡖꡞʽ"%u; "ꡠ"%u; "ꡖꡠ"%u; "ꡡ"%u; "ꡖꡡ"%u]);
   ("SouthVowelSignMap"%u, ["ꡠʽ"%u; "ꡡʽ"%u]);
   ("ModernVowelSignMap"%u, ["ꡠʽ"%u; "ꡖʽ"%u]);
   ("SinhalaVowelSignMap"%u, ["ꡠʽ"%u]);
   ("AyogavahaMap"%u, ["ꡳ"%u; "ꡳʽ"%u; "ꡜʾʽ"%u]);
   ("ViramaMap"%u, ["ʾ"%u]);
   ("ConsonantMap"%u, ["ꡀ"%u; "ꡁ"%u; "ꡂ"%u; "ṾꡂṾꡜṾ"%u; "ꡃ"%u; "ꡐ"%u; "ꡑ"%u; "ꡒ"%u;
    "ṾꡒṾꡜṾ"%u; "ꡇ"%u; "ꡩ"%u; "ꡪ"%u; "ꡫ"%u; "ṾꡫṾꡜṾ"%u; "ꡬ"%u; "ꡈ"%u;
    "ꡉ"%u; "ꡊ"%u; "ṾꡊṾꡜṾ"%u; "ꡋ"%u; "ꡌ"%u; "ꡍ"%u; "ꡎ"%u; "ṾꡎṾꡜṾ"%u;
    "ꡏ"%u; "ꡗ"%u; "ꡘ"%u; "ꡙ"%u; "ꡓ"%u; "ꡚ"%u; "ꡚʽ"%u; "ꡛ"%u;
    "ꡜ"%u]);
   ("SouthConsonantMap"%u, ["ꡙʽ"%u; "ꡙʽ"%u; "ꡘʽ"%u; "ꡋʽ"%u]);
   ("NuktaConsonantMap"%u, ["ꡢ"%u; "ꡣ"%u; "ꡥ"%u; "ꡕ"%u; "ꡫʽ"%u; "ꡫṾꡜʽ"%u; "ꡤ"%u; "ꡭ"%u]);
   ("SinhalaConsonantMap"%u, ["ꡳꡂʽ"%u; "ꡳꡒʽ"%u; "ꡳꡨʽ"%u; "ꡳꡊʽ"%u; "ꡳꡎʽ"%u]);
   ("NuktaMap"%u, ["ʽʽʽʽ"%u]);
   ("OmMap"%u, ["ṿꡡꡳ"%u]);
   ("SignMap"%u, ["ʽʽ"%u; "꡶"%u; "꡷"%u]);
   ("Aytham"%u, ["ꡜʽ"%u]);
   ("NumeralMap"%u, ["0"%u; "1"%u; "2"%u; "3"%u; "4"%u; "5"%u; "6"%u; "7"%u;
    "8"%u; "9"%u])].

(** aksharamukha/ScriptMap/EastIndic/Rejang.py:5-170 *)
Definition S_EastIndic_Rejang : table :=
  [("VowelMap"%u, ["ꥆ"%u; "ꥆʽ"%u; "ꥆꥇ"%u; "ꥆꥇʽ"%u; "ꥆꥈ"%u; "ꥆꥈʽ"%u; "ꤽꥈʽ"%u; "ꤽꥈʽ"%u;
    "ꤾꥈʽ"%u; "ꤾꥈʽ"%u; "ꥆꥉʽ"%u; "ꥆꥊ"%u; "ꥆꥋʽ"%u; "ꥆꥌ"%u]);
   ("SouthVowelMap"%u, ["ꥆꥉ"%u; "ꥆꥋ"%u]);
   ("ModernVowelMap"%u, ["ꥆꥎ"%u; "ꥆꥍ"%u]);
   ("SinhalaVowelMap"%u, ["ꥆꥎʽ"%u]);
   ("VowelSignMap"%u, ["ʽʽ"%u; [0xA947]%N; [0xA947; 0x2BD]%N; [0xA948]%N; [0xA948; 0x2BD]%N; [0xA953; 0xA93D; 0xA948; 0x2BD]%N; [0xA953; 0xA93D; 0xA948; 0x2BD]%N; [0xA953; 0xA93E; 0xA948; 0x2BD]%N;
    [0xA953; 0xA93E; 0xA948; 0x2BD]%N; [0xA949; 0x2BD]%N; [0xA94A]%N; [0xA94B; 0x2BD]%N; [0xA94C]%N]);
   ("SouthVowelSignMap"%u, [[0xA949]%N; [0xA94B]%N]);
   ("ModernVowelSignMap"%u, [[0xA94E]%N; [0xA94D]%N]);
   ("SinhalaVowelSignMap"%u, [[0xA94E; 0x2BD]%N]);
   ("AyogavahaMap"%u, [[0xA94F; 0x2BD]%N; [0xA94F]%N; [0xA952]%N]);
   ("ViramaMap"%u, [[0xA953]%N]);
   ("ConsonantMap"%u, ["ꤰ"%u; "ꤰʽ"%u; "ꤱ"%u; "ꤱʽ"%u; "ꤲ"%u; "ꤹ"%u; "ꤹʽ"%u; "ꤺ"%u;
    "ꤺʽ"%u; "ꤻ"%u; "ꤳʽ"%u; "ꤳʽ"%u; "ꤴʽ"%u; "ꤴʽ"%u; "ꤵʽ"%u; "ꤳ"%u;
    "ꤳʽ"%u; "ꤴ"%u; "ꤴʽ"%u; "ꤵ"%u; "ꤶ"%u; "ꤶʽ"%u; "ꤷ"%u; "ꤷʽ"%u;
    "ꤸ"%u; "ꤿ"%u; "ꤽ"%u; "ꤾ"%u; "ꥀ"%u; "ꤼʽ"%u; "ꤼʽ"%u; "ꤼ"%u;
    "ꥁ"%u]);
   ("SouthConsonantMap"%u, ["ꤾʽ"%u; "ꤾʽ"%u; "ꤽʽ"%u; "ꤵʽ"%u]);
   ("NuktaConsonantMap"%u, ["ꤰʽ"%u; "ꤰʽ"%u; "ꤱʽ"%u; "ꤺʽ"%u; "ꤴʽ"%u; "ꤴʽ"%u; "ꤶʽ"%u; "ꤿʽ"%u]);
   ("SinhalaConsonantMap"%u, ["ꥃ"%u; "ꥅ"%u; "ꥄʽ"%u; "ꥄ"%u; "ꥂ"%u]);
   ("NuktaMap"%u, ["ʽʽʽ"%u]);
   ("OmMap"%u, ["ꥆꥋꥏʽ"%u]);
   ("SignMap"%u, ["'"%u; "."%u; ".."%u]);
   ("Aytham"%u, [[0xA952; 0x2BD]%N]);
   ("NumeralMap"%u, ["0"%u; "1"%u; "2"%u; "3"%u; "4"%u; "5"%u; "6"%u; "7"%u;
    "8"%u; "9"%u])].

(** aksharamukha/ScriptMap/EastIndic/Shan.py:5-172 *)
Definition S_EastIndic_Shan : table :=
  [("VowelMap"%u, ["ဢ"%u; "ဢႃ"%u; "ဢိ"%u; "ဢီ"%u; "ဢု"%u; "ဢူ"%u; "ရိʽ"%u; "ရီʽ"%u;
    "လိʽ"%u; "လီʽ"%u; "ဢေ"%u; "ဢႆ"%u; "ဢေႃ"%u; "ဢဝ်ʽ"%u]);
   ("SouthVowelMap"%u, ["ဢေʽ"%u; [0x103D]%N]);
   ("ModernVowelMap"%u, ["ဢႄ"%u; "ဢႃʽ"%u]);
   ("SinhalaVowelMap"%u, ["ဢႄʽ"%u]);
   ("VowelSignMap"%u, [[0x1083]%N; [0x102D]%N; [0x102E]%N; [0x102F]%N; [0x1030]%N; [0x103A; 0x101B; 0x102D; 0x2BD]%N; [0x103A; 0x101B; 0x102E; 0x2BD]%N; [0x103A; 0x101C; 0x102D; 0x2BD]%N;
    [0x103A; 0x101C; 0x102E; 0x2BD]%N; [0x1031]%N; [0x1086]%N; [0x1031; 0x1083]%N; "ဝ်ʽ"%u]);
   ("SouthVowelSignMap"%u, [[0x1031; 0x2BD]%N; [0x1031; 0x1083; 0x2BD]%N]);
   ("ModernVowelSignMap"%u, [[0x1084]%N; [0x1083; 0x2BD]%N]);
   ("SinhalaVowelSignMap"%u, [[0x1084; 0x2BD]%N]);
   ("AyogavahaMap"%u, [[0x1036; 0x2BD]%N; [0x1036]%N; [0x1038]%N]);
   ("ViramaMap"%u, [[0x103A]%N]);
   ("ConsonantMap"%u, ["ၵ"%u; "ၶ"%u; "ၷ"%u; "ꧠ"%u; "င"%u; "ၸ"%u; "ꧡ"%u; "ꩡ"%u;
    "ꧢ"%u; "ၺ"%u; "ꩦ"%u; "ꩧ"%u; "ꩨ"%u; "ꩩ"%u; "ꧣ"%u; "တ"%u;
    "ထ"%u; "ၻ"%u; "ꩪ"%u; "ၼ"%u; "ပ"%u; "ၽ"%u; "ၿ"%u; "ꧤ"%u;
    "မ"%u; "ယ"%u; "ရ"%u; "လ"%u; "ဝ"%u; "သ်ယ"%u; "သျʽ"%u; "သ"%u;
    "ႁ"%u]);
   ("SouthConsonantMap"%u, ["ꩮ"%u; "ꩮʽ"%u; "ရʽ"%u; "ၼʽ"%u]);
   ("NuktaConsonantMap"%u, ["ၵʽ"%u; "ၶʽ"%u; "ၷʽ"%u; "ၹ"%u; "ꩨʽ"%u; "ꩩʽ"%u; "ၾ"%u; "ယʽ"%u]);
   ("SinhalaConsonantMap"%u, [[0x1036; 0x1077; 0x2BD]%N; [0x1036; 0xAA61; 0x2BD]%N; [0x1036; 0xAA68; 0x2BD]%N; [0x1036; 0x107B; 0x2BD]%N; [0x1036; 0x107F; 0x2BD]%N]);
   ("NuktaMap"%u, ["ʽʽ"%u]);
   ("OmMap"%u, ["ဢေႃံ"%u]);
   ("SignMap"%u, ["'"%u; "၊"%u; "။"%u]);
   ("Aytham"%u, [[0x1038; 0x2BD]%N]);
   ("NumeralMap"%u, ["႐"%u; "႑"%u; "႒"%u; "႓"%u; "႔"%u; "႕"%u; "႖"%u; "႗"%u;
    "႘"%u; "႙"%u])].

(** aksharamukha/ScriptMap/EastIndic/ShanLoC.py:5-172 *)
Definition S_EastIndic_ShanLoC : table :=
  [("VowelMap"%u, ["ဢ"%u; "ဢႃ"%u; "ဢိ"%u; "ဢီ"%u; "ဢု"%u; "ဢူ"%u; "ရိʽ"%u; "ရီʽ"%u;
    "လိʽ"%u; "လီʽ"%u; "ဢေ"%u; "ဢႆ"%u; "ဢေႃ"%u; "ဢွ"%u]);
   ("SouthVowelMap"%u, ["ဢေʽ"%u; "ဢေႃʽ"%u]);
   ("ModernVowelMap"%u, ["ဢႄ"%u; "ဢႃʽ"%u]);
   ("SinhalaVowelMap"%u, ["ဢႄʽ"%u]);
   ("VowelSignMap"%u, [[0x1083]%N; [0x102D]%N; [0x102E]%N; [0x102F]%N; [0x1030]%N; [0x103A; 0x101B; 0x102D; 0x2BD]%N; [0x103A; 0x101B; 0x102E; 0x2BD]%N; [0x103A; 0x101C; 0x102D; 0x2BD]%N;
    [0x103A; 0x101C; 0x102E; 0x2BD]%N; [0x1031]%N; [0x1086]%N; [0x1031; 0x1083]%N; [0x103D]%N]);
   ("SouthVowelSignMap"%u, [[0x1031; 0x2BD]%N; [0x1031; 0x1083; 0x2BD]%N]);
   ("ModernVowelSignMap"%u, [[0x1084]%N; [0x1083; 0x2BD]%N]);
   ("SinhalaVowelSignMap"%u, [[0x1084; 0x2BD]%N]);
   ("AyogavahaMap"%u, [[0x1036; 0x2BD]%N; [0x1036]%N; [0x1038]%N]);
   ("ViramaMap"%u, [[0x103A]%N]);
   ("ConsonantMap"%u, ["ၵ"%u; "ၶ"%u; "ၷ"%u; "ꧠ"%u; "င"%u; "ၸ"%u; "ꧡ"%u; "ꩡ"%u;
    "ꧢ"%u; "ၺ"%u; "ꩦ"%u; "ꩧ"%u; "ꩨ"%u; "ꩩ"%u; "ꧣ"%u; "တ"%u;
    "ထ"%u; "ၻ"%u; "ꩪ"%u; "ၼ"%u; "ပ"%u; "ၽ"%u; "ၿ"%u; "ꧤ"%u;
    "မ"%u; "ယ"%u; "ရ"%u; "လ"%u; "ဝ"%u; "သ်ယ"%u; "သျʽ"%u; "သ"%u;
    "ႁ"%u]);
   ("SouthConsonantMap"%u, ["ꩮ"%u; "ꩮʽ"%u; "ရʽ"%u; "ၼʽ"%u]);
   ("NuktaConsonantMap"%u, ["ၵʽ"%u; "ၶʽ"%u; "ၷʽ"%u; "ၹ"%u; "ꩨʽ"%u; "ꩩʽ"%u; "ၾ"%u; "ယʽ"%u]);
   ("SinhalaConsonantMap"%u, [[0x1036; 0x1077; 0x2BD]%N; [0x1036; 0xAA61; 0x2BD]%N; [0x1036; 0xAA68; 0x2BD]%N; [0x1036; 0x107B; 0x2BD]%N; [0x1036; 0x107F; 0x2BD]%N]);
   ("NuktaMap"%u, ["ʽʽ"%u]);
   ("OmMap"%u, ["ဢေႃံ"%u]);
   ("SignMap"%u, ["'"%u; "၊"%u; "။"%u]);
   ("Aytham"%u, [[0x1038; 0x2BD]%N]);
   ("NumeralMap"%u, ["႐"%u; "႑"%u; "႒"%u; "႓"%u; "႔"%u; "႕"%u; "႖"%u; "႗"%u;
    "႘"%u; "႙"%u])].

(** aksharamukha/ScriptMap/EastIndic/Siddham.py:5-171 *)
Definition S_EastIndic_Siddham : table :=
  [("VowelMap"%u, ["𑖀"%u; "𑖁"%u; "𑖂"%u; "𑖃"%u; "𑖄"%u; "𑖅"%u; "𑖆"%u; "𑖇"%u;
    "𑖈"%u; "𑖉"%u; "𑖊"%u; "𑖋"%u; "𑖌"%u; "𑖍"%u]);
   ("SouthVowelMap"%u, ["𑖊ʽ"%u; "𑖌ʽ"%u]);
   ("ModernVowelMap"%u, ["𑖊ʽ"%u; "𑖁ʽ"%u]);
   ("SinhalaVowelMap"%u, ["𑖊ʽ"%u]);
   ("VowelSignMap"%u, [[0x115AF]%N; [0x115B0]%N; [0x115B1]%N; [0x115B2]%N; [0x115B3]%N; [0x115B4]%N; [0x115B5]%N; [0x115BF; 0x115A9; 0x115B0; 0x2BD]%N;
    [0x115BF; 0x115A9; 0x115B1; 0x2BD]%N; [0x115B8]%N; [0x115B9]%N; [0x115BA]%N; [0x115BB]%N]);
   ("SouthVowelSignMap"%u, [[0x115B8; 0x2BD]%N; [0x115BA; 0x2BD]%N]);
   ("ModernVowelSignMap"%u, [[0x115B8; 0x2BD]%N; [0x115AF; 0x2BD]%N]);
   ("SinhalaVowelSignMap"%u, [[0x115B8; 0x2BD]%N]);
   ("AyogavahaMap"%u, [[0x115BC]%N; [0x115BD]%N; [0x115BE]%N]);
   ("ViramaMap"%u, [[0x115BF]%N]);
   ("ConsonantMap"%u, ["𑖎"%u; "𑖏"%u; "𑖐"%u; "𑖑"%u; "𑖒"%u; "𑖓"%u; "𑖔"%u; "𑖕"%u;
    "𑖖"%u; "𑖗"%u; "𑖘"%u; "𑖙"%u; "𑖚"%u; "𑖛"%u; "𑖜"%u; "𑖝"%u;
    "𑖞"%u; "𑖟"%u; "𑖠"%u; "𑖡"%u; "𑖢"%u; "𑖣"%u; "𑖤"%u; "𑖥"%u;
    "𑖦"%u; "𑖧"%u; "𑖨"%u; "𑖩"%u; "𑖪"%u; "𑖫"%u; "𑖬"%u; "𑖭"%u;
    "𑖮"%u]);
   ("SouthConsonantMap"%u, ["𑖩𑗀"%u; "𑖬𑗀"%u; "𑖨𑗀"%u; "𑖡𑗀"%u]);
   ("NuktaConsonantMap"%u, ["𑖎𑗀"%u; "𑖏𑗀"%u; "𑖐𑗀"%u; "𑖕𑗀"%u; "𑖚𑗀"%u; "𑖛𑗀"%u; "𑖣𑗀"%u; "𑖧𑗀"%u]);
   ("SinhalaConsonantMap"%u, [[0x115BC; 0x2BD; 0x11590]%N; [0x115BC; 0x2BD; 0x11595]%N; [0x115BC; 0x2BD; 0x1159A]%N; [0x115BC; 0x2BD; 0x1159F]%N; [0x115BC; 0x2BD; 0x115A4]%N]);
   ("NuktaMap"%u, [[0x115C0]%N]);
   ("OmMap"%u, ["𑖌𑖼"%u]);
   ("SignMap"%u, ["ʽʽ"%u; "𑗂"%u; "𑗃"%u]);
   ("Aytham"%u, [[0x115BE; 0x2BD]%N]);
   ("NumeralMap"%u, ["0"%u; "1"%u; "2"%u; "3"%u; "4"%u; "5"%u; "6"%u; "7"%u;
    "8"%u; "9"%u])].

(** aksharamukha/ScriptMap/EastIndic/Soyombo.py:5-171 *)
Definition S_EastIndic_Soyombo : table :=
  [("VowelMap"%u, ["𑩐"%u; "𑩐𑩛"%u; "𑩐𑩑"%u; "𑩐𑩑𑩛"%u; "𑩐𑩒"%u; "𑩐𑩒𑩛"%u; "𑩐𑩙"%u; "𑩐𑩙𑩛"%u;
    "𑩐𑩚"%u; "𑩐𑩚𑩛"%u; "𑩐𑩔"%u; "𑩐𑩗"%u; "𑩐𑩖"%u; "𑩐𑩘"%u]);
   ("SouthVowelMap"%u, ["𑩐𑩔ʽ"%u; "𑩐𑩖ʽ"%u]);
   ("ModernVowelMap"%u, ["𑩐𑩔ʽ"%u; "𑩐𑩕"%u]);
   ("SinhalaVowelMap"%u, ["𑩐𑩔ʽ"%u]);
   ("VowelSignMap"%u, [[0x11A5B]%N; [0x11A51]%N; [0x11A51; 0x11A5B]%N; [0x11A52]%N; [0x11A52; 0x11A5B]%N; [0x11A59]%N; [0x11A59; 0x11A5B]%N; [0x11A5A]%N;
    [0x11A5A; 0x11A5B]%N; [0x11A54]%N; [0x11A57]%N; [0x11A56]%N; [0x11A58]%N]);
   ("SouthVowelSignMap"%u, [[0x11A54; 0x2BD]%N; [0x11A56; 0x2BD]%N]);
   ("ModernVowelSignMap"%u, [[0x11A54; 0x2BD]%N; [0x11A55]%N]);
   ("SinhalaVowelSignMap"%u, [[0x11A54; 0x2BD]%N]);
   ("AyogavahaMap"%u, [[0x11A96; 0x2BD]%N; [0x11A96]%N; [0x11A97]%N]);
   ("ViramaMap"%u, [[0x11A99]%N]);
   ("ConsonantMap"%u, ["𑩜"%u; "𑩝"%u; "𑩞"%u; "𑩟"%u; "𑩠"%u; "𑩵"%u; "𑩶"%u; "𑩷"%u;
    "𑩤"%u; "𑩥"%u; "𑩦"%u; "𑩧"%u; "𑩨"%u; "𑩩"%u; "𑩪"%u; "𑩫"%u;
    "𑩬"%u; "𑩭"%u; "𑩮"%u; "𑩯"%u; "𑩰"%u; "𑩱"%u; "𑩲"%u; "𑩳"%u;
    "𑩴"%u; "𑩻"%u; "𑩼"%u; "𑩽"%u; "𑩾"%u; "𑩿"%u; "𑪀"%u; "𑪁"%u;
    "𑪂"%u]);
   ("SouthConsonantMap"%u, ["𑩽ʽ"%u; "𑩽ʽ"%u; "𑩼ʽ"%u; "𑩯ʽ"%u]);
   ("NuktaConsonantMap"%u, ["𑩜ʽ"%u; "𑩝ʽ"%u; "𑩞ʽ"%u; "𑩹"%u; "𑨖ʽ"%u; "𑩨ʽ"%u; "𑩩ʽ"%u; "𑩱ʽ"%u]);
   ("SinhalaConsonantMap"%u, [[0x11A96; 0x11A5E; 0x2BD]%N; [0x11A96; 0x11A77; 0x2BD]%N; [0x11A96; 0x11A68; 0x2BD]%N; [0x11A96; 0x11A6D; 0x2BD]%N; [0x11A96; 0x11A72; 0x2BD]%N]);
   ("NuktaMap"%u, ["ʽʽʽʽ"%u]);
   ("OmMap"%u, ["𑩐𑩖𑪖"%u]);
   ("SignMap"%u, ["ʽʽʽ"%u; "𑪛"%u; "𑪜"%u]);
   ("Aytham"%u, [[0x11A97; 0x2BD]%N]);
   ("NumeralMap"%u, ["0"%u; "1"%u; "2"%u; "3"%u; "4"%u; "5"%u; "6"%u; "7"%u;
    "8"%u; "9"%u])].

(** aksharamukha/ScriptMap/EastIndic/Sundanese.py:5-170 *)
Definition S_EastIndic_Sundanese : table :=
  [("VowelMap"%u, ["ᮃ"%u; "ᮃʽ"%u; "ᮄ"%u; "ᮄʽ"%u; "ᮅ"%u; "ᮅʽ"%u; "ᮻ"%u; "ᮻʽ"%u;
    "ᮼ"%u; "ᮼʽ"%u; "ᮈʽ"%u; "ᮃᮄʽ"%u; "ᮇʽ"%u; "ᮃᮅʽ"%u]);
   ("SouthVowelMap"%u, ["ᮈ"%u; "ᮇ"%u]);
   ("ModernVowelMap"%u, ["ᮆ"%u; "ᮉ"%u]);
   ("SinhalaVowelMap"%u, ["ᮆʽ"%u]);
   ("VowelSignMap"%u, ["ʽʽ"%u; [0x1BA4]%N; [0x1BA4; 0x2BD]%N; [0x1BA5]%N; [0x1BA5; 0x2BD]%N; [0x1BAA; 0x1BBB]%N; [0x1BAA; 0x1BBB; 0x2BD]%N; [0x1BAA; 0x1BBC]%N;
    [0x1BAA; 0x1BBC; 0x2BD]%N; [0x1BA8; 0x2BD]%N; "ᮄʽ"%u; [0x1BA7; 0x2BD]%N; "ᮅʽ"%u]);
   ("SouthVowelSignMap"%u, [[0x1BA8]%N; [0x1BA7]%N]);
   ("ModernVowelSignMap"%u, [[0x1BA6]%N; [0x1BA9]%N]);
   ("SinhalaVowelSignMap"%u, [[0x1BA6; 0x2BD]%N]);
   ("AyogavahaMap"%u, [[0x1B80; 0x2BD]%N; [0x1B80]%N; [0x1B82]%N]);
   ("ViramaMap"%u, [[0x1BAA]%N]);
   ("ConsonantMap"%u, ["ᮊ"%u; "ᮊʽ"%u; "ᮌ"%u; "ᮌʽ"%u; "ᮍ"%u; "ᮎ"%u; "ᮎʽ"%u; "ᮏ"%u;
    "ᮏʽ"%u; "ᮑ"%u; "ᮒʽ"%u; "ᮒʽ"%u; "ᮓʽ"%u; "ᮓʽ"%u; "ᮔʽ"%u; "ᮒ"%u;
    "ᮒʽ"%u; "ᮓ"%u; "ᮓʽ"%u; "ᮔ"%u; "ᮕ"%u; "ᮕʽ"%u; "ᮘ"%u; "ᮽ"%u;
    "ᮙ"%u; "ᮚ"%u; "ᮛ"%u; "ᮜ"%u; "ᮝ"%u; "ᮯ"%u; "ᮯʽ"%u; "ᮞ"%u;
    "ᮠ"%u]);
   ("SouthConsonantMap"%u, ["ᮜʽ"%u; "ᮜʽ"%u; "ᮛʽ"%u; "ᮔʽ"%u]);
   ("NuktaConsonantMap"%u, ["ᮋ"%u; "ᮮ"%u; "ᮌʽ"%u; "ᮐ"%u; "ᮓʽ"%u; "ᮓʽ"%u; "ᮖ"%u; "ᮚʽ"%u]);
   ("SinhalaConsonantMap"%u, [[0x1B80; 0x1B8C; 0x2BD]%N; [0x1B80; 0x1B8F; 0x2BD]%N; [0x1B80; 0x1B93; 0x2BD]%N; [0x1B80; 0x1B93; 0x2BD]%N; [0x1B80; 0x1B98; 0x2BD]%N]);
   ("NuktaMap"%u, ["ʽʽʽ"%u]);
   ("OmMap"%u, ["ᮇᮀʽ"%u]);
   ("SignMap"%u, ["ᮺ"%u; "."%u; ".."%u]);
   ("Aytham"%u, [[0x1B82; 0x2BD]%N]);
   ("NumeralMap"%u, ["᮰"%u; "᮱"%u; "᮲"%u; "᮳"%u; "᮴"%u; "᮵"%u; "᮶"%u; "᮷"%u;
    "᮸"%u; "᮹"%u])].

(** aksharamukha/ScriptMap/EastIndic/Tagalog.py:5-171 *)
Definition S_EastIndic_Tagalog : table :=
  [("VowelMap"%u, ["ᜀ"%u; "ᜀʽ"%u; "ᜁ"%u; "ᜁʽ"%u; "ᜂ"%u; "ᜂʽ"%u; "ᜎᜓʽ"%u; "ᜎᜓʽ"%u;
    "ᜎᜓʽ"%u; "ᜎᜓʽ"%u; "ᜁʽ"%u; "ᜀᜁʽ"%u; "ᜂʽ"%u; "ᜀᜂʽ"%u]);
   ("SouthVowelMap"%u, ["ᜁʽ"%u; "ᜂʽ"%u]);
   ("ModernVowelMap"%u, ["ᜁʽ"%u; "ᜀʽ"%u]);
   ("SinhalaVowelMap"%u, ["ᜁʽ"%u]);
   ("VowelSignMap"%u, ["ʽʽ"%u; [0x1712]%N; [0x1712; 0x2BD]%N; [0x1713]%N; [0x1713; 0x2BD]%N; [0x1714; 0x170E; 0x1713; 0x2BD]%N; [0x1714; 0x170E; 0x1713; 0x2BD]%N; [0x1714; 0x170E; 0x1713; 0x2BD]%N;
    [0x1714; 0x170E; 0x1713; 0x2BD]%N; [0x1712; 0x2BD]%N; "ᜁʽ"%u; [0x1713; 0x2BD]%N; "ᜂʽ"%u]);
   ("SouthVowelSignMap"%u, [[0x1712; 0x2BD]%N; [0x1713; 0x2BD]%N]);
   ("ModernVowelSignMap"%u, [[0x1712; 0x2BD]%N; "ʽʽ"%u]);
   ("SinhalaVowelSignMap"%u, [[0x1712; 0x2BD]%N]);
   ("AyogavahaMap"%u, ["ᜋ᜔ʽ"%u; "ᜋ᜔ʽ"%u; "ᜑ᜔ʽ"%u]);
   ("ViramaMap"%u, [[0x1714]%N]);
   ("ConsonantMap"%u, ["ᜃ"%u; "ᜃʽ"%u; "ᜄ"%u; "ᜄʽ"%u; "ᜅ"%u; "ᜐʽ"%u; "ᜐʽ"%u; "ᜇʽ"%u;
    "ᜇʽ"%u; "ᜈʽ"%u; "ᜆʽ"%u; "ᜆʽ"%u; "ᜇʽ"%u; "ᜇʽ"%u; "ᜈʽ"%u; "ᜆ"%u;
    "ᜆʽ"%u; "ᜇ"%u; "ᜇʽ"%u; "ᜈ"%u; "ᜉ"%u; "ᜉʽ"%u; "ᜊ"%u; "ᜊʽ"%u;
    "ᜋ"%u; "ᜌ"%u; "ᜍ"%u; "ᜎ"%u; "ᜏ"%u; "ᜐʽ"%u; "ᜐʽ"%u; "ᜐ"%u;
    "ᜑ"%u]);
   ("SouthConsonantMap"%u, ["ᜎʽ"%u; "ᜎʽ"%u; "ᜍʽ"%u; "ᜈʽ"%u]);
   ("NuktaConsonantMap"%u, ["ᜃʽ"%u; "ᜃʽ"%u; "ᜄʽ"%u; "ᜇʽ"%u; "ᜇʽ"%u; "ᜇʽ"%u; "ᜉʽ"%u; "ᜌʽ"%u]);
   ("SinhalaConsonantMap"%u, ["ᜅ᜔ᜄʽ"%u; "ᜈᜇᜄʽ"%u; "ᜈᜇᜄʽ"%u; "ᜈᜇᜄʽ"%u; "ᜋᜊᜄʽ"%u]);
   ("NuktaMap"%u, ["ʽʽʽʽ"%u]);
   ("OmMap"%u, ["ᜂᜋ᜔ʽ"%u]);
   ("SignMap"%u, ["ʽʽ"%u; "᜵"%u; "᜶"%u]);
   ("Aytham"%u, ["ᜑ᜔ʽʽ"%u]);
   ("NumeralMap"%u, ["0"%u; "1"%u; "2"%u; "3"%u; "4"%u; "5"%u; "6"%u; "7"%u;
    "8"%u; "9"%u])].

(** aksharamukha/ScriptMap/EastIndic/Tagbanwa.py:5-171 *)
Definition S_EastIndic_Tagbanwa : table :=
  [("VowelMap"%u, ["ᝠ"%u; "ᝠʽ"%u; "ᝡ"%u; "ᝡʽ"%u; "ᝢ"%u; "ᝢʽ"%u; "ᝮᝳʽ"%u; "ᝮᝳʽ"%u;
    "ᝮᝳʽ"%u; "ᝮᝳʽ"%u; "ᝡʽ"%u; "ᝠᝡʽ"%u; "ᝢʽ"%u; "ᝠᝢʽ"%u]);
   ("SouthVowelMap"%u, ["ᝡʽ"%u; "ᝢʽ"%u]);
   ("ModernVowelMap"%u, ["ᝡʽ"%u; "ᝠʽ"%u]);
   ("SinhalaVowelMap"%u, ["ᝡʽ"%u]);
   ("VowelSignMap"%u, ["ʽʽ"%u; [0x1772]%N; [0x1772; 0x2BD]%N; [0x1773]%N; [0x1773; 0x2BD]%N; "ᝮᝳʽ"%u; "ᝮᝳʽ"%u; "ᝮᝳʽ"%u;
    "ᝮᝳʽ"%u; [0x1772; 0x2BD]%N; "ᝡʽ"%u; [0x1773; 0x2BD]%N; "ᝢʽ"%u]);
   ("SouthVowelSignMap"%u, [[0x1772; 0x2BD]%N; [0x1773; 0x2BD]%N]);
   ("ModernVowelSignMap"%u, [[0x1772; 0x2BD]%N; "ʽʽ"%u]);
   ("SinhalaVowelSignMap"%u, [[0x1772; 0x2BD]%N]);
   ("AyogavahaMap"%u, ["ᝫʽ"%u; "ᝫʽ"%u; "ᝣʽ"%u]);
   ("ViramaMap"%u, ["ʽʽ"%u]);
   ("ConsonantMap"%u, ["ᝣ"%u; "ᝣʽ"%u; "ᝤ"%u; "ᝤʽ"%u; "ᝥ"%u; "ᝰʽ"%u; "ᝰʽ"%u; "ᝧʽ"%u;
    "ᝧʽ"%u; "ᝨʽ"%u; "ᝦʽ"%u; "ᝦʽ"%u; "ᝧʽ"%u; "ᝧʽ"%u; "ᝨʽ"%u; "ᝦ"%u;
    "ᝦʽ"%u; "ᝧ"%u; "ᝧʽ"%u; "ᝨ"%u; "ᝩ"%u; "ᝩʽ"%u; "ᝪ"%u; "ᝪʽ"%u;
    "ᝫ"%u; "ᝬ"%u; "ᝮʽ"%u; "ᝮ"%u; "ᝯ"%u; "ᝰʽ"%u; "ᝰʽ"%u; "ᝰ"%u;
    "ᝣʽ"%u]);
   ("SouthConsonantMap"%u, ["ᝮʽ"%u; "ᝮʽ"%u; "ᝮʽ"%u; "ᝨʽ"%u]);
   ("NuktaConsonantMap"%u, ["ᝣʽ"%u; "ᝣʽ"%u; "ᝤʽ"%u; "ᝧʽ"%u; "ᝧʽ"%u; "ᝧʽ"%u; "ᝩʽ"%u; "ᝬʽ"%u]);
   ("SinhalaConsonantMap"%u, ["ᝥᝤʽ"%u; "ᝨᝧʽ"%u; "ᝨᝧʽ"%u; "ᝨᝧʽ"%u; "ᝫᝪʽ"%u]);
   ("NuktaMap"%u, ["ʽʽʽʽ"%u]);
   ("OmMap"%u, ["ᝢᝫʽ"%u]);
   ("SignMap"%u, ["ʽʽ"%u; "᜵"%u; "᜶"%u]);
   ("Aytham"%u, ["ᝣʽʽ"%u]);
   ("NumeralMap"%u, ["0"%u; "1"%u; "2"%u; "3"%u; "4"%u; "5"%u; "6"%u; "7"%u;
    "8"%u; "9"%u])].

(** aksharamukha/ScriptMap/EastIndic/TaiLaing.py:5-172 *)
Definition S_EastIndic_TaiLaing : table :=
  [("VowelMap"%u, ["အ"%u; "အႃ"%u; "အိ"%u; "အီ"%u; "အု"%u; "အူ"%u; "ꩺိʽ"%u; "ꩺီʽ"%u;
    "လိʽ"%u; "လီʽ"%u; "အေ"%u; "အႆ"%u; "အေႃ"%u; "အဝ်ʽ"%u]);
   ("SouthVowelMap"%u, ["အေʽ"%u; "အေႃʽ"%u]);
   ("ModernVowelMap"%u, ["အေʽ"%u; "အႃʽ"%u]);
   ("SinhalaVowelMap"%u, ["အေʽ"%u]);
   ("VowelSignMap"%u, [[0x1083]%N; [0x102D]%N; [0x102E]%N; [0x102F]%N; [0x1030]%N; [0x103A; 0xAA7A; 0x102D; 0x2BD]%N; [0x103A; 0xAA7A; 0x102E; 0x2BD]%N; [0x103A; 0x101C; 0x102D; 0x2BD]%N;
    [0x103A; 0x101C; 0x102E; 0x2BD]%N; [0x1031]%N; [0x1086]%N; [0x1031; 0x1083]%N; "ဝ်ʽ"%u]);
   ("SouthVowelSignMap"%u, [[0x1031; 0x2BD]%N; [0x1031; 0x1083; 0x2BD]%N]);
   ("ModernVowelSignMap"%u, [[0x1084]%N; [0x1083; 0x2BD]%N]);
   ("SinhalaVowelSignMap"%u, [[0x1084; 0x2BD]%N]);
   ("AyogavahaMap"%u, [[0x1036; 0x2BD]%N; [0x1036]%N; [0x1038]%N]);
   ("ViramaMap"%u, [[0x103A]%N]);
   ("ConsonantMap"%u, ["က"%u; "ၵ"%u; "ꧩ"%u; "ꧪ"%u; "င"%u; "ၸ"%u; "ꩬ"%u; "ꧫ"%u;
    "ꧬ"%u; "ꧧ"%u; "ꩦ"%u; "ꩧ"%u; "ꧭ"%u; "ꧮ"%u; "ꧯ"%u; "တ"%u;
    "ထ"%u; "ꧻ"%u; "ꧼ"%u; "ꩫ"%u; "ပ"%u; "ꧤ"%u; "ꧽ"%u; "ꧾ"%u;
    "မ"%u; "ယ"%u; "ꩺ"%u; "လ"%u; "ဝ"%u; "ꧬʽ"%u; "ꧬʽ"%u; "ꧬ"%u;
    "ၯ"%u]);
   ("SouthConsonantMap"%u, ["ꧺ"%u; "ꧺʽ"%u; "ꩺʽ"%u; "ꩫʽ"%u]);
   ("NuktaConsonantMap"%u, ["ကʽ"%u; "ၵʽ"%u; "ꧩʽ"%u; "ꧫʽ"%u; "ꧭʽ"%u; "ꧮʽ"%u; "ꧨ"%u; "ယʽ"%u]);
   ("SinhalaConsonantMap"%u, [[0x1036; 0x1075; 0x2BD]%N; [0x1036; 0xA9EB; 0x2BD]%N; [0x1036; 0xA9ED; 0x2BD]%N; [0x1036; 0xA9FB; 0x2BD]%N; [0x1036; 0xA9FD; 0x2BD]%N]);
   ("NuktaMap"%u, ["ʽʽʽ"%u]);
   ("OmMap"%u, ["အေႃံ"%u]);
   ("SignMap"%u, ["'"%u; "၊"%u; "။"%u]);
   ("Aytham"%u, [[0x1038; 0x2BD]%N]);
   ("NumeralMap"%u, ["꧰"%u; "꧱"%u; "꧲"%u; "꧳"%u; "꧴"%u; "꧵"%u; "꧶"%u; "꧷"%u;
    "꧸"%u; "꧹"%u])].

(** aksharamukha/ScriptMap/EastIndic/TaiTham.py:7-173 *)
Definition S_EastIndic_TaiTham : table :=
  [("VowelMap"%u, ["ᩋ"%u; "ᩋᩣ"%u; "ᩍ"%u; "ᩎ"%u; "ᩏ"%u; "ᩐ"%u; "ᩂ"%u; "ᩂᩣ"%u;
    "ᩄ"%u; "ᩄᩣ"%u; "ᩑ"%u; "ᩋᩱ"%u; "ᩒ"%u; "ᩏᩫᩣ"%u]);
   ("SouthVowelMap"%u, ["ᩑʽ"%u; "ᩒʽ"%u]);
   ("ModernVowelMap"%u, ["ᩑʽ"%u; "ᩋᩣʽ"%u]);
   ("SinhalaVowelMap"%u, ["ᩑʽ"%u]);
   ("VowelSignMap"%u, [[0x1A63]%N; [0x1A65]%N; [0x1A66]%N; [0x1A69]%N; [0x1A6A]%N; [0x1A7A; 0x1A42]%N; [0x1A7A; 0x1A42; 0x1A63]%N; [0x1A7A; 0x1A44]%N;
    [0x1A7A; 0x1A44; 0x1A63]%N; [0x1A6E]%N; [0x1A71]%N; [0x1A6E; 0x1A63]%N; [0x1A6E; 0x1A6B; 0x1A63]%N]);
   ("SouthVowelSignMap"%u, [[0x1A6E; 0x2BD]%N; [0x1A6E; 0x1A63; 0x2BD]%N]);
   ("ModernVowelSignMap"%u, [[0x1A6E; 0x2BD]%N; [0x1A63; 0x2BD]%N]);
   ("SinhalaVowelSignMap"%u, [[0x1A6E; 0x2BD]%N]);
   ("AyogavahaMap"%u, [[0x1A74; 0x2BD]%N; [0x1A74]%N; [0x1A61]%N]);
   ("ViramaMap"%u, [[0x1A7A]%N]);
   ("ConsonantMap"%u, ["ᨠ"%u; "ᨡ"%u; "ᨣ"%u; "ᨥ"%u; "ᨦ"%u; "ᨧ"%u; "ᨨ"%u; "ᨩ"%u;
    "ᨫ"%u; "ᨬ"%u; "ᨭ"%u; "ᨮ"%u; "ᨯ"%u; "ᨰ"%u; "ᨱ"%u; "ᨲ"%u;
    "ᨳ"%u; "ᨴ"%u; "ᨵ"%u; "ᨶ"%u; "ᨸ"%u; "ᨹ"%u; "ᨻ"%u; "ᨽ"%u;
    "ᨾ"%u; "ᨿ"%u; "ᩁ"%u; "ᩃ"%u; "ᩅ"%u; "ᩆ"%u; "ᩇ"%u; "ᩈ"%u;
    "ᩉ"%u]);
   ("SouthConsonantMap"%u, ["ᩊ"%u; "ᩊʽ"%u; "ᩁʽ"%u; "ᨶʽ"%u]);
   ("NuktaConsonantMap"%u, ["ᨠʽ"%u; "ᨡʽ"%u; "ᨣʽ"%u; "ᨩʽ"%u; "ᨯʽ"%u; "ᨰʽ"%u; "ᨹʽ"%u; "ᨿʽ"%u]);
   ("SinhalaConsonantMap"%u, [[0x1A74; 0x1A23; 0x2BD]%N; [0x1A74; 0x1A29; 0x2BD]%N; [0x1A74; 0x1A2F; 0x2BD]%N; [0x1A74; 0x1A34; 0x2BD]%N; [0x1A74; 0x1A3D; 0x2BD]%N]);
   ("NuktaMap"%u, ["ʽʽʽʽ"%u]);
   ("OmMap"%u, ["ᩒᩴ"%u]);
   ("SignMap"%u, ["'"%u; "᪨"%u; "᪩"%u]);
   ("Aytham"%u, [[0x1A61; 0x2BD]%N]);
   ("NumeralMap"%u, ["᪐"%u; "᪑"%u; "᪒"%u; "᪓"%u; "᪔"%u; "᪕"%u; "᪖"%u; "᪗"%u;
    "᪘"%u; "᪙"%u])].

(** aksharamukha/ScriptMap/EastIndic/Thaana.py:6-171 *)
Definition S_EastIndic_Thaana : table :=
  [("VowelMap"%u, ["އަ"%u; "އާ"%u; "އި"%u; "އީ"%u; "އު"%u; "އޫ"%u; "ރު"%u; "ރޫ"%u;
    "ލު"%u; "ލޫ"%u; "އޭ"%u; "އައިʽ"%u; "އޯ"%u; "އައުʽ"%u]);
   ("SouthVowelMap"%u, ["އެ"%u; "އޮ"%u]);
   ("ModernVowelMap"%u, ["އެʽ"%u; "އާʽ"%u]);
   ("SinhalaVowelMap"%u, ["އޭʽ"%u]);
   ("VowelSignMap"%u, [[0x7A7]%N; [0x7A8]%N; [0x7A9]%N; [0x7AA]%N; [0x7AB]%N; [0x7B0; 0x783; 0x7AA]%N; [0x7B0; 0x783; 0x7AB]%N; [0x7B0; 0x78D; 0x7AA]%N;
    [0x7B0; 0x78D; 0x7AB]%N; [0x7AD]%N; [0x7A6; 0x787; 0x7A8; 0x2BD]%N; [0x7AF]%N; [0x7A6; 0x787; 0x7AA; 0x2BD]%N]);
   ("SouthVowelSignMap"%u, [[0x7AC]%N; [0x7AE]%N]);
   ("ModernVowelSignMap"%u, [[0x7AC; 0x2BD]%N; [0x7A7; 0x2BD]%N]);
   ("SinhalaVowelSignMap"%u, [[0x7AD; 0x2BD]%N]);
   ("AyogavahaMap"%u, ["މްʽ"%u; "މްʽ"%u; "ހަްʽ"%u]);
   ("ViramaMap"%u, [[0x7B0]%N]);
   ("ConsonantMap"%u, ["ކަ"%u; "ކʽަ"%u; "ގަ"%u; "ގʽަ"%u; "ނʽަ"%u; "ޗަ"%u; "ޗʽަ"%u; "ޖަ"%u;
    "ޖʽަ"%u; "ޏަ"%u; "ޓަ"%u; "ޓʽަ"%u; "ޑަ"%u; "ޑʽަ"%u; "ޱަ"%u; "ތަ"%u;
    "ތʽަ"%u; "ދަ"%u; "ދʽަ"%u; "ނަ"%u; "ޕަ"%u; "ޕʽަ"%u; "ބަ"%u; "ބʽަ"%u;
    "މަ"%u; "ޔަ"%u; "ރަ"%u; "ލަ"%u; "ވަ"%u; "ޝަ"%u; "ށަ"%u; "ސަ"%u;
    "ހަ"%u]);
   ("SouthConsonantMap"%u, ["ޅަ"%u; "ޅʽަ"%u; "ރʽަ"%u; "ނʽަ"%u]);
   ("NuktaConsonantMap"%u, ["ޤަ"%u; "ޚަ"%u; "ޣަ"%u; "ޒަ"%u; "ޑʽަ"%u; "ޑʽަ"%u; "ފަ"%u; "ޔʽަ"%u]);
   ("SinhalaConsonantMap"%u, ["ނގަ"%u; "ނޖަ"%u; "ނޑަ"%u; "ނދަ"%u; "ނބަ"%u]);
   ("NuktaMap"%u, ["ʽʽʽ"%u]);
   ("OmMap"%u, ["އޯމަް"%u]);
   ("SignMap"%u, ["ʽʽ"%u; "۔"%u; "۔۔"%u]);
   ("Aytham"%u, ["ހަްʽʽ"%u]);
   ("NumeralMap"%u, ["0"%u; "1"%u; "2"%u; "3"%u; "4"%u; "5"%u; "6"%u; "7"%u;
    "8"%u; "9"%u])].

(** aksharamukha/ScriptMap/EastIndic/Thai.py:7-174 *)
Definition S_EastIndic_Thai : table :=
  [("VowelMap"%u, ["อ"%u; "อา"%u; "อิ"%u; "อี"%u; "อุ"%u; "อู"%u; "ฤ"%u; "ฤๅ"%u;
    "ฦ"%u; "ฦๅ"%u; "อเ"%u; "อไ"%u; "อโ"%u; "อเา"%u]);
   ("SouthVowelMap"%u, ["อเะ"%u; "อโะ"%u]);
   ("ModernVowelMap"%u, ["อแะ"%u; "อเาะ"%u]);
   ("SinhalaVowelMap"%u, ["อแ"%u]);
   ("VowelSignMap"%u, ["า"%u; [0xE34]%N; [0xE35]%N; [0xE38]%N; [0xE39]%N; [0xE3A; 0xE24]%N; [0xE3A; 0xE24; 0xE45]%N; [0xE3A; 0xE26]%N;
    [0xE3A; 0xE26; 0xE45]%N; "เ"%u; "ไ"%u; "โ"%u; "เา"%u]);
   ("SouthVowelSignMap"%u, ["เะ"%u; "โะ"%u]);
   ("ModernVowelSignMap"%u, ["แะ"%u; "เาะ"%u]);
   ("SinhalaVowelSignMap"%u, ["แ"%u]);
   ("AyogavahaMap"%u, [[0xE4D; 0x2BD]%N; [0xE4D]%N; "ห์"%u]);
   ("ViramaMap"%u, [[0xE3A]%N]);
   ("ConsonantMap"%u, ["ก"%u; "ข"%u; "ค"%u; "ฆ"%u; "ง"%u; "จ"%u; "ฉ"%u; "ช"%u;
    "ฌ"%u; "ญ"%u; "ฏ"%u; "ฐ"%u; "ฑ"%u; "ฒ"%u; "ณ"%u; "ต"%u;
    "ถ"%u; "ท"%u; "ธ"%u; "น"%u; "ป"%u; "ผ"%u; "พ"%u; "ภ"%u;
    "ม"%u; "ย"%u; "ร"%u; "ล"%u; "ว"%u; "ศ"%u; "ษ"%u; "ส"%u;
    "ห"%u]);
   ("SouthConsonantMap"%u, ["ฬ"%u; "ฬʽ"%u; "รʽ"%u; "นʽ"%u]);
   ("NuktaConsonantMap"%u, ["กʽ"%u; "ฃ"%u; "ฅ"%u; "ซ"%u; "รʽ"%u; "รฺหʽ"%u; "ฟ"%u; "ยʽ"%u]);
   ("SinhalaConsonantMap"%u, [[0xE4D; 0xE04; 0x2BD]%N; [0xE4D; 0xE0A; 0x2BD]%N; [0xE4D; 0xE11; 0x2BD]%N; [0xE4D; 0xE17; 0x2BD]%N; [0xE4D; 0xE1E; 0x2BD]%N]);
   ("NuktaMap"%u, ["ʽʽʽʽ"%u]);
   ("OmMap"%u, ["โอํ"%u]);
   ("SignMap"%u, ["'"%u; "ฯ"%u; "๚"%u]);
   ("Aytham"%u, ["ห์ʽ"%u]);
   ("NumeralMap"%u, ["๐"%u; "๑"%u; "๒"%u; "๓"%u; "๔"%u; "๕"%u; "๖"%u; "๗"%u;
    "๘"%u; "๙"%u])].

(** aksharamukha/ScriptMap/EastIndic/ThamLoC.py:7-173 *)
Definition S_EastIndic_ThamLoC : table :=
  [("VowelMap"%u, ["ᩋ"%u; "ᩋᩣ"%u; "ᩍ"%u; "ᩎ"%u; "ᩏ"%u; "ᩐ"%u; "ᩂ"%u; "ᩂᩣ"%u;
    "ᩄ"%u; "ᩄᩣ"%u; "ᩑ"%u; "ᩋᩱ"%u; "ᩒ"%u; "ᩋ᩿ᩅᩫ"%u]);
   ("SouthVowelMap"%u, ["ᩑʽ"%u; "ᩒʽ"%u]);
   ("ModernVowelMap"%u, ["ᩋᩯ"%u; "ᩋᩣʽ"%u]);
   ("SinhalaVowelMap"%u, ["ᩑʽ"%u]);
   ("VowelSignMap"%u, [[0x1A63]%N; [0x1A65]%N; [0x1A66]%N; [0x1A69]%N; [0x1A6A]%N; [0x1A7A; 0x1A42]%N; [0x1A7A; 0x1A42; 0x1A63]%N; [0x1A7A; 0x1A44]%N;
    [0x1A7A; 0x1A44; 0x1A63]%N; [0x1A6E]%N; [0x1A71]%N; [0x1A70]%N; [0x1A7F; 0x1A45; 0x1A6B]%N]);
   ("SouthVowelSignMap"%u, [[0x1A6E; 0x2BD]%N; [0x1A70; 0x2BD]%N]);
   ("ModernVowelSignMap"%u, [[0x1A6F]%N; [0x1A63; 0x2BD]%N]);
   ("SinhalaVowelSignMap"%u, [[0x1A6E; 0x2BD]%N]);
   ("AyogavahaMap"%u, [[0x1A74; 0x2BD]%N; [0x1A74]%N; [0x1A61]%N]);
   ("ViramaMap"%u, [[0x1A7A]%N]);
   ("ConsonantMap"%u, ["ᨠ"%u; "ᨡ"%u; "ᨣ"%u; "ᨥ"%u; "ᨦ"%u; "ᨧ"%u; "ᨨ"%u; "ᨩ"%u;
    "ᨫ"%u; "ᨬ"%u; "ᨭ"%u; "ᨮ"%u; "ᨯ"%u; "ᨰ"%u; "ᨱ"%u; "ᨲ"%u;
    "ᨳ"%u; "ᨴ"%u; "ᨵ"%u; "ᨶ"%u; "ᨸ"%u; "ᨹ"%u; "ᨻ"%u; "ᨽ"%u;
    "ᨾ"%u; "ᨿ"%u; "ᩁ"%u; "ᩃ"%u; "ᩅ"%u; "ᩆ"%u; "ᩇ"%u; "ᩈ"%u;
    "ᩉ"%u]);
   ("SouthConsonantMap"%u, ["ᩊ"%u; "ᩊʽ"%u; "ᩁʽ"%u; "ᨶʽ"%u]);
   ("NuktaConsonantMap"%u, ["ᨠʽ"%u; "ᨡʽ"%u; "ᨣʽ"%u; "ᨩʽ"%u; "ᨯʽ"%u; "ᨰʽ"%u; "ᨹʽ"%u; "ᨿʽ"%u]);
   ("SinhalaConsonantMap"%u, [[0x1A74; 0x1A23; 0x2BD]%N; [0x1A74; 0x1A29; 0x2BD]%N; [0x1A74; 0x1A2F; 0x2BD]%N; [0x1A74; 0x1A34; 0x2BD]%N; [0x1A74; 0x1A3D; 0x2BD]%N]);
   ("NuktaMap"%u, ["ʽʽʽʽ"%u]);
   ("OmMap"%u, ["ᩒᩴ"%u]);
   ("SignMap"%u, ["'"%u; "᪨"%u; "᪩"%u]);
   ("Aytham"%u, [[0x1A61; 0x2BD]%N]);
   ("NumeralMap"%u, ["᪐"%u; "᪑"%u; "᪒"%u; "᪓"%u; "᪔"%u; "᪕"%u; "᪖"%u; "᪗"%u;
    "᪘"%u; "᪙"%u])].

(** aksharamukha/ScriptMap/EastIndic/Tibetan.py:5-170 *)
Definition S_EastIndic_Tibetan : table :=
  [("VowelMap"%u, ["ཨ"%u; "ཨཱ"%u; "ཨི"%u; "ཨཱི"%u; "ཨུ"%u; "ཨཱུ"%u; "རྀ"%u; "རཱྀ"%u;
    "ལྀ"%u; "ལཱྀ"%u; "ཨེ"%u; "ཨཻ"%u; "ཨོ"%u; "ཨཽ"%u]);
   ("SouthVowelMap"%u, ["ཨེʽ"%u; "ཨོʽ"%u]);
   ("ModernVowelMap"%u, ["ཨེʽ"%u; "ཨཱʽ"%u]);
   ("SinhalaVowelMap"%u, ["ཨེʽ"%u]);
   ("VowelSignMap"%u, [[0xF71]%N; [0xF72]%N; [0xF71; 0xF72]%N; [0xF74]%N; [0xF71; 0xF74]%N; [0xFB2; 0xF80]%N; [0xFB2; 0xF71; 0xF80]%N; [0xFB3; 0xF80]%N;
    [0xFB3; 0xF71; 0xF80]%N; [0xF7A]%N; [0xF7B]%N; [0xF7C]%N; [0xF7D]%N]);
   ("SouthVowelSignMap"%u, [[0xF7A; 0x2BD]%N; [0xF7C; 0x2BD]%N]);
   ("ModernVowelSignMap"%u, [[0xF7A; 0x2BD]%N; [0xF71; 0x2BD]%N]);
   ("SinhalaVowelSignMap"%u, [[0xF7A; 0x2BD]%N]);
   ("AyogavahaMap"%u, [[0xF83]%N; [0xF7E]%N; [0xF7F]%N]);
   ("ViramaMap"%u, [[0xF84]%N]);
   ("ConsonantMap"%u, ["ཀ"%u; "ཁ"%u; "ག"%u; "གྷ"%u; "ང"%u; "ཙ"%u; "ཚ"%u; "ཛ"%u;
    "ཛྷ"%u; "ཉ"%u; "ཊ"%u; "ཋ"%u; "ཌ"%u; "ཌྷ"%u; "ཎ"%u; "ཏ"%u;
    "ཐ"%u; "ད"%u; "དྷ"%u; "ན"%u; "པ"%u; "ཕ"%u; "བ"%u; "བྷ"%u;
    "མ"%u; "ཡ"%u; "ར"%u; "ལ"%u; "ཝ"%u; "ཤ"%u; "ཥ"%u; "ས"%u;
    "ཧ"%u]);
   ("SouthConsonantMap"%u, ["ལ༹"%u; "ཥ༹"%u; "ར༹"%u; "ན༹"%u]);
   ("NuktaConsonantMap"%u, ["ཀ༹"%u; "ཁ༹"%u; "ག༹"%u; "ཟ"%u; "ཌ༹"%u; "ཌྷ༹"%u; "ཕ༹"%u; "ཡ༹"%u]);
   ("SinhalaConsonantMap"%u, [[0xF83; 0xF40; 0x2BD]%N; [0xF83; 0xF5B; 0x2BD]%N; [0xF83; 0xF4C; 0x2BD]%N; [0xF83; 0xF51; 0x2BD]%N; [0xF83; 0xF56; 0x2BD]%N]);
   ("NuktaMap"%u, [[0xF39]%N]);
   ("OmMap"%u, ["ༀ"%u]);
   ("SignMap"%u, ["྅"%u; "།"%u; "༎"%u]);
   ("Aytham"%u, [[0xF7F; 0x2BD]%N]);
   ("NumeralMap"%u, ["༠"%u; "༡"%u; "༢"%u; "༣"%u; "༤"%u; "༥"%u; "༦"%u; "༧"%u;
    "༨"%u; "༩"%u])].

(** aksharamukha/ScriptMap/EastIndic/TibetanLoC.py:5-170 *)
Definition S_EastIndic_TibetanLoC : table :=
  [("VowelMap"%u, ["ཨ"%u; "ཨཱ"%u; "ཨི"%u; "ཨཱི"%u; "ཨུ"%u; "ཨཱུ"%u; "རྀ"%u; "རཱྀ"%u;
    "ལྀ"%u; "ལཱྀ"%u; "ཨེ"%u; "ཨཻ"%u; "ཨོ"%u; "ཨཽ"%u]);
   ("SouthVowelMap"%u, ["ཨེʽ"%u; "ཨོʽ"%u]);
   ("ModernVowelMap"%u, ["ཨེʽ"%u; "ཨཱʽ"%u]);
   ("SinhalaVowelMap"%u, ["ཨེʽ"%u]);
   ("VowelSignMap"%u, [[0xF71]%N; [0xF72]%N; [0xF71; 0xF72]%N; [0xF74]%N; [0xF71; 0xF74]%N; [0xFB2; 0xF80]%N; [0xFB2; 0xF71; 0xF80]%N; [0xFB3; 0xF80]%N;
    [0xFB3; 0xF71; 0xF80]%N; [0xF7A]%N; [0xF7B]%N; [0xF7C]%N; [0xF7D]%N]);
   ("SouthVowelSignMap"%u, [[0xF7A; 0x2BD]%N; [0xF7C; 0x2BD]%N]);
   ("ModernVowelSignMap"%u, [[0xF7A; 0x2BD]%N; [0xF71; 0x2BD]%N]);
   ("SinhalaVowelSignMap"%u, [[0xF7A; 0x2BD]%N]);
   ("AyogavahaMap"%u, [[0xF83]%N; [0xF7E]%N; [0xF7F]%N]);
   ("ViramaMap"%u, [[0xF84]%N]);
   ("ConsonantMap"%u, ["ཀ"%u; "ཁ"%u; "ག"%u; "གྷ"%u; "ང"%u; "ཅ"%u; "ཆ"%u; "ཇ"%u;
    "ཇྷ"%u; "ཉ"%u; "ཊ"%u; "ཋ"%u; "ཌ"%u; "ཌྷ"%u; "ཎ"%u; "ཏ"%u;
    "ཐ"%u; "ད"%u; "དྷ"%u; "ན"%u; "པ"%u; "ཕ"%u; "བ"%u; "བྷ"%u;
    "མ"%u; "ཡ"%u; "ར"%u; "ལ"%u; "ཝ"%u; "ཤ"%u; "ཥ"%u; "ས"%u;
    "ཧ"%u]);
   ("SouthConsonantMap"%u, ["ལ༹"%u; "ཥ༹"%u; "ར༹"%u; "ན༹"%u]);
   ("NuktaConsonantMap"%u, ["ཙ"%u; "ཚ"%u; "ཛ"%u; "ཛྷ"%u; "འ"%u; "ཞ"%u; "ཟ"%u; "ཡ༹"%u]);
   ("SinhalaConsonantMap"%u, [[0xF83; 0xF40; 0x2BD]%N; [0xF83; 0xF5B; 0x2BD]%N; [0xF83; 0xF4C; 0x2BD]%N; [0xF83; 0xF51; 0x2BD]%N; [0xF83; 0xF56; 0x2BD]%N]);
   ("NuktaMap"%u, [[0xF39]%N]);
   ("OmMap"%u, ["ༀ"%u]);
   ("SignMap"%u, ["྅"%u; "།"%u; "༎"%u]);
   ("Aytham"%u, [[0xF7F; 0x2BD]%N]);
   ("NumeralMap"%u, ["༠"%u; "༡"%u; "༢"%u; "༣"%u; "༤"%u; "༥"%u; "༦"%u; "༧"%u;
    "༨"%u; "༩"%u])].

(** aksharamukha/ScriptMap/EastIndic/ZanabazarSquare.py:5-171 *)
Definition S_EastIndic_ZanabazarSquare : table :=
  [("VowelMap"%u, ["𑨀"%u; "𑨀𑨊"%u; "𑨀𑨁"%u; "𑨀𑨁𑨊"%u; "𑨀𑨂"%u; "𑨀𑨂𑨊"%u; "𑨫𑨉"%u; "𑨫𑨉𑨊"%u;
    "𑨬𑨉"%u; "𑨬𑨉𑨊"%u; "𑨀𑨄"%u; "𑨀𑨄𑨊"%u; "𑨀𑨆"%u; "𑨀𑨆𑨊"%u]);
   ("SouthVowelMap"%u, ["𑨀𑨄ʽ"%u; "𑨀𑨆ʽ"%u]);
   ("ModernVowelMap"%u, ["𑨀𑨄ʽ"%u; "𑨀𑨅"%u]);
   ("SinhalaVowelMap"%u, ["𑨀𑨄ʽ"%u]);
   ("VowelSignMap"%u, [[0x11A0A]%N; [0x11A01]%N; [0x11A01; 0x11A0A]%N; [0x11A02]%N; [0x11A02; 0x11A0A]%N; [0x11A34; 0x11A2B; 0x11A09]%N; [0x11A34; 0x11A2B; 0x11A09; 0x11A0A]%N; [0x11A34; 0x11A2C; 0x11A09]%N;
    [0x11A34; 0x11A2C; 0x11A09; 0x11A0A]%N; [0x11A04]%N; [0x11A04; 0x11A0A]%N; [0x11A06]%N; [0x11A06; 0x11A0A]%N]);
   ("SouthVowelSignMap"%u, [[0x11A04; 0x2BD]%N; [0x11A06; 0x2BD]%N]);
   ("ModernVowelSignMap"%u, [[0x11A04; 0x2BD]%N; [0x11A05]%N]);
   ("SinhalaVowelSignMap"%u, [[0x11A04; 0x2BD]%N]);
   ("AyogavahaMap"%u, [[0x11A35]%N; [0x11A38]%N; [0x11A39]%N]);
   ("ViramaMap"%u, [[0x11A34]%N]);
   ("ConsonantMap"%u, ["𑨋"%u; "𑨌"%u; "𑨍"%u; "𑨎"%u; "𑨏"%u; "𑨣"%u; "𑨤"%u; "𑨥"%u;
    "𑨦"%u; "𑨓"%u; "𑨔"%u; "𑨕"%u; "𑨖"%u; "𑨗"%u; "𑨘"%u; "𑨙"%u;
    "𑨚"%u; "𑨛"%u; "𑨜"%u; "𑨝"%u; "𑨞"%u; "𑨟"%u; "𑨠"%u; "𑨡"%u;
    "𑨢"%u; "𑨪"%u; "𑨫"%u; "𑨬"%u; "𑨭"%u; "𑨮"%u; "𑨯"%u; "𑨰"%u;
    "𑨱"%u]);
   ("SouthConsonantMap"%u, ["𑨬ʽ"%u; "𑨬ʽ"%u; "𑨫ʽ"%u; "𑨝ʽ"%u]);
   ("NuktaConsonantMap"%u, ["𑨋ʽ"%u; "𑨌ʽ"%u; "𑨍ʽ"%u; "𑨨"%u; "𑨖ʽ"%u; "𑨗ʽ"%u; "𑨟ʽ"%u; "𑨪ʽ"%u]);
   ("SinhalaConsonantMap"%u, [[0x11A35; 0x11A0D; 0x2BD]%N; [0x11A35; 0x11A25; 0x2BD]%N; [0x11A35; 0x11A16; 0x2BD]%N; [0x11A35; 0x11A1B; 0x2BD]%N; [0x11A35; 0x11A20; 0x2BD]%N]);
   ("NuktaMap"%u, ["ʽʽʽʽ"%u]);
   ("OmMap"%u, ["𑨀𑨆𑨵"%u]);
   ("SignMap"%u, ["ʽʽʽ"%u; "𑩂"%u; "𑩃"%u]);
   ("Aytham"%u, [[0x11A39; 0x2BD]%N]);
   ("NumeralMap"%u, ["0"%u; "1"%u; "2"%u; "3"%u; "4"%u; "5"%u; "6"%u; "7"%u;
    "8"%u; "9"%u])].

(** aksharamukha/ScriptMap/Roman/Aksharaa.py:5-149 *)
Definition S_Roman_Aksharaa : table :=
  [("VowelMap"%u, ["a"%u; "aa"%u; "i"%u; "ii"%u; "u"%u; "uu"%u; "ru'"%u; "ruu'"%u;
    "lu'"%u; "luu'"%u; "ee"%u; "ai"%u; "oo"%u; "au"%u]);
   ("SouthVowelMap"%u, ["e"%u; "o"%u]);
   ("ModernVowelMap"%u, ["e'"%u; "o'"%u]);
   ("SinhalaVowelMap"%u, ["ee'"%u]);
   ("VowelSignMap"%u, ["aa"%u; "i"%u; "ii"%u; "u"%u; "uu"%u; "ru'"%u; "ruu'"%u; "lu'"%u;
    "luu'"%u; "ee"%u; "ai"%u; "oo"%u; "au"%u]);
   ("SouthVowelSignMap"%u, ["e"%u; "o"%u]);
   ("ModernVowelSignMap"%u, ["e'"%u; "o'"%u]);
   ("SinhalaVowelSignMap"%u, ["ee'"%u]);
   ("AyogavahaMap"%u, ["m;"%u; "m'"%u; "h'"%u]);
   ("ViramaMap"%u, ["×"%u]);
   ("ConsonantMap"%u, ["k"%u; "kh"%u; "g"%u; "gh"%u; "ng'"%u; "ch"%u; "chh"%u; "j"%u;
    "jh"%u; "nj'"%u; "t'"%u; "t'h"%u; "d'"%u; "d'h"%u; "n'"%u; "t"%u;
    "th"%u; "d"%u; "dh"%u; "n"%u; "p"%u; "ph"%u; "b"%u; "bh"%u;
    "m"%u; "y"%u; "r"%u; "l"%u; "v"%u; "sh"%u; "shh"%u; "s"%u;
    "h"%u]);
   ("SouthConsonantMap"%u, ["l'"%u; "zh"%u; "r'"%u; "n;"%u]);
   ("NuktaConsonantMap"%u, ["q"%u; "qh"%u; "g;"%u; "z"%u; "d;"%u; "d;h"%u; "f"%u; "y;"%u]);
   ("SinhalaConsonantMap"%u, ["ng;"%u; "nj;"%u; "nd';"%u; "nd;"%u; "mb;"%u]);
   ("NuktaMap"%u, ["Q"%u]);
   ("OmMap"%u, ["oom'"%u]);
   ("SignMap"%u, ["a;"%u; "."%u; ".."%u]);
   ("Aytham"%u, ["_k"%u]);
   ("NumeralMap"%u, ["0"%u; "1"%u; "2"%u; "3"%u; "4"%u; "5"%u; "6"%u; "7"%u;
    "8"%u; "9"%u])].

(** aksharamukha/ScriptMap/Roman/Ariyaka.py:5-149 *)
Definition S_Roman_Ariyaka : table :=
  [("VowelMap"%u, ["a"%u; "A"%u; "i"%u; "I"%u; "u"%u; "U"%u; "ruʽ"%u; "rUʽ"%u;
    "luʽ"%u; "lUʽ"%u; "e"%u; "ai"%u; "o"%u; "au"%u]);
   ("SouthVowelMap"%u, ["eʽ"%u; "oʽ"%u]);
   ("ModernVowelMap"%u, ["eʽ"%u; "A"%u]);
   ("SinhalaVowelMap"%u, ["eʽ"%u]);
   ("VowelSignMap"%u, ["A"%u; "i"%u; "I"%u; "u"%u; "U"%u; "ruʽ"%u; "rUʽ"%u; "luʽ"%u;
    "lUʽ"%u; "e"%u; "ai"%u; "o"%u; "au"%u]);
   ("SouthVowelSignMap"%u, ["eʽ"%u; "oʽ"%u]);
   ("ModernVowelSignMap"%u, ["eʽ"%u; "A"%u]);
   ("SinhalaVowelSignMap"%u, ["eʽ"%u]);
   ("AyogavahaMap"%u, ["Mʽ"%u; "M"%u; "h"%u]);
   ("ViramaMap"%u, ["×"%u]);
   ("ConsonantMap"%u, ["k"%u; "K"%u; "g"%u; "G"%u; "~"%u; "c"%u; "C"%u; "j"%u;
    "J"%u; "Y"%u; "T"%u; "F"%u; "D"%u; "V"%u; "N"%u; "t"%u;
    "f"%u; "d"%u; "@"%u; "n"%u; "p"%u; "P"%u; "b"%u; "B"%u;
    "m"%u; "y"%u; "r"%u; "l"%u; "v"%u; "sʽ"%u; "sʽ"%u; "s"%u;
    "h"%u]);
   ("SouthConsonantMap"%u, ["L"%u; "Lʽ"%u; "rʽ"%u; "nʽ"%u]);
   ("NuktaConsonantMap"%u, ["kʽ"%u; "Kʽ"%u; "gʽ"%u; "jʽ"%u; "Dʽ"%u; "Vʽ"%u; "Pʽ"%u; "yʽ"%u]);
   ("SinhalaConsonantMap"%u, ["Mgʽ"%u; "Mjʽ"%u; "MDʽ"%u; "Mdʽ"%u; "Mbʽ"%u]);
   ("NuktaMap"%u, ["ʽʽ"%u]);
   ("OmMap"%u, ["oM"%u]);
   ("SignMap"%u, ["'"%u; "."%u; ".."%u]);
   ("Aytham"%u, ["hʽ"%u]);
   ("NumeralMap"%u, ["0"%u; "1"%u; "2"%u; "3"%u; "4"%u; "5"%u; "6"%u; "7"%u;
    "8"%u; "9"%u])].

(** aksharamukha/ScriptMap/Roman/AssameseRomanLoC.py:5-148 *)
Definition S_Roman_AssameseRomanLoC : table :=
  [("VowelMap"%u, ["a"%u; "ā"%u; "i"%u; "ī"%u; "u"%u; "ū"%u; "r̥"%u; "r̥̄"%u;
    "l̥"%u; "l̥̄"%u; "e"%u; "ai"%u; "o"%u; "au"%u]);
   ("SouthVowelMap"%u, ["ĕ"%u; "ŏ"%u]);
   ("ModernVowelMap"%u, ["æ"%u; "ô"%u]);
   ("SinhalaVowelMap"%u, ["ǣ"%u]);
   ("VowelSignMap"%u, ["ā"%u; "i"%u; "ī"%u; "u"%u; "ū"%u; "r̥"%u; "r̥̄"%u; "l̥"%u;
    "l̥̄"%u; "e"%u; "ai"%u; "o"%u; "au"%u]);
   ("SouthVowelSignMap"%u, ["ĕ"%u; "ŏ"%u]);
   ("ModernVowelSignMap"%u, ["æ"%u; "ô"%u]);
   ("SinhalaVowelSignMap"%u, ["ǣ"%u]);
   ("AyogavahaMap"%u, ["m̐"%u; "ṃ"%u; "ḥ"%u]);
   ("ViramaMap"%u, ["×"%u]);
   ("ConsonantMap"%u, ["k"%u; "kh"%u; "g"%u; "gh"%u; "ṅ"%u; "c"%u; "ch"%u; "j"%u;
    "jh"%u; "ñ"%u; "ṭ"%u; "ṭh"%u; "ḍ"%u; "ḍh"%u; "ṇ"%u; "t"%u;
    "th"%u; "d"%u; "dh"%u; "n"%u; "p"%u; "ph"%u; "b"%u; "bh"%u;
    "m"%u; "y"%u; "r"%u; "l"%u; "w"%u; "ś"%u; "sh"%u; "s"%u;
    "h"%u]);
   ("SouthConsonantMap"%u, ["ḷ"%u; "ḻ"%u; "ṟ"%u; "ṉ"%u]);
   ("NuktaConsonantMap"%u, ["q"%u; "k͟h"%u; "ġ"%u; "z"%u; "ṛ"%u; "ṛh"%u; "f"%u; "ẏ"%u]);
   ("SinhalaConsonantMap"%u, ["n̆g"%u; "n̆j"%u; "n̆ḍ"%u; "n̆d"%u; "m̆b"%u]);
   ("NuktaMap"%u, [[0x308]%N]);
   ("OmMap"%u, ["ōṃ"%u]);
   ("Aytham"%u, ["ḵ"%u]);
   ("SignMap"%u, ["’"%u; "."%u; ".."%u]);
   ("NumeralMap"%u, ["0"%u; "1"%u; "2"%u; "3"%u; "4"%u; "5"%u; "6"%u; "7"%u;
    "8"%u; "9"%u])].

(** aksharamukha/ScriptMap/Roman/Avestan.py:6-150 *)
Definition S_Roman_Avestan : table :=
  [("VowelMap"%u, ["𐬀"%u; "𐬁"%u; "𐬌"%u; "𐬍"%u; "𐬎"%u; "𐬏"%u; "𐬆𐬭𐬆"%u; "𐬇𐬭𐬇"%u;
    "𐬆𐬮𐬆"%u; "𐬇𐬮𐬇"%u; "𐬉"%u; "𐬀𐬌"%u; "𐬋"%u; "𐬀𐬎"%u]);
   ("SouthVowelMap"%u, ["𐬈"%u; "𐬊"%u]);
   ("ModernVowelMap"%u, ["𐬆"%u; "𐬂"%u]);
   ("SinhalaVowelMap"%u, ["𐬇"%u]);
   ("VowelSignMap"%u, ["𐬁"%u; "𐬌"%u; "𐬍"%u; "𐬎"%u; "𐬏"%u; "𐬆𐬭𐬆"%u; "𐬇𐬭𐬇"%u; "𐬆𐬮𐬆"%u;
    "𐬇𐬮𐬇"%u; "𐬉"%u; "𐬀𐬌"%u; "𐬋"%u; "𐬀𐬎"%u]);
   ("SouthVowelSignMap"%u, ["𐬈"%u; "𐬊"%u]);
   ("ModernVowelSignMap"%u, ["𐬆"%u; "𐬂"%u]);
   ("SinhalaVowelSignMap"%u, ["𐬇"%u]);
   ("AyogavahaMap"%u, ["𐬩ʽ"%u; "𐬩"%u; "𐬵"%u]);
   ("ViramaMap"%u, ["×"%u]);
   ("ConsonantMap"%u, ["𐬐"%u; "𐬑"%u; "𐬔"%u; "𐬖"%u; "𐬢"%u; "𐬗"%u; "𐬗ʽ"%u; "𐬘"%u;
    "𐬘ʽ"%u; "𐬦"%u; "𐬙ʽ"%u; "𐬚ʽ"%u; "𐬛ʽ"%u; "𐬛ʽ"%u; "𐬧"%u; "𐬙"%u;
    "𐬚"%u; "𐬛"%u; "𐬜"%u; "𐬥"%u; "𐬞"%u; "𐬞ʽ"%u; "𐬠"%u; "𐬠ʽ"%u;
    "𐬨"%u; "𐬫"%u; "𐬭"%u; "𐬮"%u; "𐬬"%u; "𐬱"%u; "𐬴"%u; "𐬯"%u;
    "𐬵"%u]);
   ("SouthConsonantMap"%u, ["𐬮ʽ"%u; "𐬮ʽ"%u; "𐬭ʽ"%u; "𐬥ʽ"%u]);
   ("NuktaConsonantMap"%u, ["𐬐ʽ"%u; "𐬓"%u; "𐬕"%u; "𐬰"%u; "𐬛ʽ"%u; "𐬜ʽ"%u; "𐬟"%u; "𐬪"%u]);
   ("SinhalaConsonantMap"%u, ["𐬢𐬔ʽ"%u; "𐬣𐬘ʽ"%u; "𐬥𐬛ʽ"%u; "𐬥𐬛ʽ"%u; "𐬨𐬠ʽ"%u]);
   ("NuktaMap"%u, ["ʿ"%u]);
   ("OmMap"%u, ["𐬋𐬨"%u]);
   ("SignMap"%u, ["ʽ"%u; [0x10B3C; 0x200F]%N; [0x10B3D; 0x200F]%N]);
   ("Aytham"%u, ["𐬑ʽ"%u]);
   ("NumeralMap"%u, ["0"%u; "1"%u; "2"%u; "3"%u; "4"%u; "5"%u; "6"%u; "7"%u;
    "8"%u; "9"%u])].

(** aksharamukha/ScriptMap/Roman/BalineseRomanLoC.py:5-148 *)
Definition S_Roman_BalineseRomanLoC : table :=
  [("VowelMap"%u, ["a"%u; "ā"%u; "i"%u; "ī"%u; "u"%u; "ū"%u; "rĕ"%u; "rö"%u;
    "lĕ"%u; "lö"%u; "e"%u; "ai"%u; "o"%u; "au"%u]);
   ("SouthVowelMap"%u, ["ĕʽ"%u; "ŏʽ"%u]);
   ("ModernVowelMap"%u, ["ĕ"%u; "ô"%u]);
   ("SinhalaVowelMap"%u, ["ö"%u]);
   ("VowelSignMap"%u, ["ā"%u; "i"%u; "ī"%u; "u"%u; "ū"%u; "rĕ"%u; "rö"%u; "lĕ"%u;
    "lö"%u; "e"%u; "ai"%u; "o"%u; "au"%u]);
   ("SouthVowelSignMap"%u, ["ĕʽ"%u; "ŏʽ"%u]);
   ("ModernVowelSignMap"%u, ["ĕ"%u; "ô"%u]);
   ("SinhalaVowelSignMap"%u, ["ö"%u]);
   ("AyogavahaMap"%u, ["ng"%u; "ng"%u; "h"%u]);
   ("ViramaMap"%u, ["×"%u]);
   ("ConsonantMap"%u, ["k"%u; "kh"%u; "g"%u; "gh"%u; "ng"%u; "c"%u; "ch"%u; "j"%u;
    "jh"%u; "ñ"%u; "ṭ"%u; "ṭh"%u; "ḍ"%u; "ḍh"%u; "ṇ"%u; "t"%u;
    "th"%u; "d"%u; "dh"%u; "n"%u; "p"%u; "ph"%u; "b"%u; "bh"%u;
    "m"%u; "y"%u; "r"%u; "l"%u; "w"%u; "ś"%u; "ṣ"%u; "s"%u;
    "h"%u]);
   ("SouthConsonantMap"%u, ["ḷ"%u; "ḻ"%u; "ṟ"%u; "ṉ"%u]);
   ("NuktaConsonantMap"%u, ["khʽ"%u; "k͟h"%u; "ghʽ"%u; "z"%u; "ṛ"%u; "ṛh"%u; "f"%u; "ẏ"%u]);
   ("SinhalaConsonantMap"%u, ["n̆g"%u; "n̆j"%u; "n̆ḍ"%u; "n̆d"%u; "m̆b"%u]);
   ("NuktaMap"%u, [[0x308]%N]);
   ("OmMap"%u, ["ōṁ"%u]);
   ("Aytham"%u, ["ḵ"%u]);
   ("SignMap"%u, ["’"%u; "."%u; ".."%u]);
   ("NumeralMap"%u, ["0"%u; "1"%u; "2"%u; "3"%u; "4"%u; "5"%u; "6"%u; "7"%u;
    "8"%u; "9"%u])].

(** aksharamukha/ScriptMap/Roman/BalineseSimpleRomanLoC.py:5-148 *)
Definition S_Roman_BalineseSimpleRomanLoC : table :=
  [("VowelMap"%u, ["a"%u; "ā"%u; "i"%u; "ī"%u; "u"%u; "ū"%u; "rĕ"%u; "rö"%u;
    "lĕ"%u; "lö"%u; "e"%u; "ai"%u; "o"%u; "au"%u]);
   ("SouthVowelMap"%u, ["ĕʽ"%u; "ŏʽ"%u]);
   ("ModernVowelMap"%u, ["ĕ"%u; "ô"%u]);
   ("SinhalaVowelMap"%u, ["ö"%u]);
   ("VowelSignMap"%u, ["ā"%u; "i"%u; "ī"%u; "u"%u; "ū"%u; "rĕ"%u; "rö"%u; "lĕ"%u;
    "lö"%u; "e"%u; "ai"%u; "o"%u; "au"%u]);
   ("SouthVowelSignMap"%u, ["ĕʽ"%u; "ŏʽ"%u]);
   ("ModernVowelSignMap"%u, ["ĕ"%u; "ô"%u]);
   ("SinhalaVowelSignMap"%u, ["ö"%u]);
   ("AyogavahaMap"%u, ["ng"%u; "ng"%u; "h"%u]);
   ("ViramaMap"%u, ["×"%u]);
   ("ConsonantMap"%u, ["k"%u; "kʽ"%u; "g"%u; "gh"%u; "ng"%u; "c"%u; "cʽ"%u; "j"%u;
    "jʽ"%u; "ñ"%u; "ṭ"%u; "ṭʽ"%u; "ḍ"%u; "ḍʽ"%u; "n"%u; "t"%u;
    "tʽ"%u; "d"%u; "dh"%u; "n"%u; "p"%u; "pʽ"%u; "b"%u; "bʽ"%u;
    "m"%u; "y"%u; "r"%u; "l"%u; "w"%u; "s"%u; "s"%u; "s"%u;
    "h"%u]);
   ("SouthConsonantMap"%u, ["ḷ"%u; "ḻ"%u; "ṟ"%u; "ṉ"%u]);
   ("NuktaConsonantMap"%u, ["khʽ"%u; "k͟h"%u; "ghʽ"%u; "z"%u; "ṛ"%u; "ṛh"%u; "f"%u; "ẏ"%u]);
   ("SinhalaConsonantMap"%u, ["n̆g"%u; "n̆j"%u; "n̆ḍ"%u; "n̆d"%u; "m̆b"%u]);
   ("NuktaMap"%u, [[0x308]%N]);
   ("OmMap"%u, ["ōṁ"%u]);
   ("Aytham"%u, ["ḵ"%u]);
   ("SignMap"%u, ["’"%u; "."%u; ".."%u]);
   ("NumeralMap"%u, ["0"%u; "1"%u; "2"%u; "3"%u; "4"%u; "5"%u; "6"%u; "7"%u;
    "8"%u; "9"%u])].

(** aksharamukha/ScriptMap/Roman/BarahaNorth.py:5-148 *)
Definition S_Roman_BarahaNorth : table :=
  [("VowelMap"%u, ["a"%u; "aa"%u; "i"%u; "ee"%u; "u"%u; "oo"%u; "Ru"%u; "RU"%u;
    "~lu"%u; "~lU"%u; "e"%u; "ai"%u; "o"%u; "au"%u]);
   ("SouthVowelMap"%u, ["E"%u; "O"%u]);
   ("ModernVowelMap"%u, ["~e"%u; "~o"%u]);
   ("SinhalaVowelMap"%u, ["~~e"%u]);
   ("VowelSignMap"%u, ["aa"%u; "i"%u; "ee"%u; "u"%u; "oo"%u; "Ru"%u; "RU"%u; "~lu"%u;
    "~lU"%u; "e"%u; "ai"%u; "o"%u; "au"%u]);
   ("SouthVowelSignMap"%u, ["E"%u; "O"%u]);
   ("ModernVowelSignMap"%u, ["~e"%u; "~o"%u]);
   ("SinhalaVowelSignMap"%u, ["~~e"%u]);
   ("AyogavahaMap"%u, ["~M"%u; "M"%u; "H"%u]);
   ("ViramaMap"%u, ["×"%u]);
   ("ConsonantMap"%u, ["k"%u; "kh"%u; "g"%u; "gh"%u; "~g"%u; "c"%u; "C"%u; "j"%u;
    "jh"%u; "~j"%u; "T"%u; "Th"%u; "D"%u; "Dh"%u; "N"%u; "t"%u;
    "th"%u; "d"%u; "dh"%u; "n"%u; "p"%u; "ph"%u; "b"%u; "bh"%u;
    "m"%u; "y"%u; "r"%u; "l"%u; "v"%u; "S"%u; "Sh"%u; "s"%u;
    "h"%u]);
   ("SouthConsonantMap"%u, ["L"%u; "Lx"%u; "rx"%u; "nx"%u]);
   ("NuktaConsonantMap"%u, ["kx"%u; "Kx"%u; "gx"%u; "z"%u; "Dx"%u; "Dhx"%u; "f"%u; "yx"%u]);
   ("SinhalaConsonantMap"%u, ["~ng"%u; "~nj"%u; "~nD"%u; "~nd"%u; "~mb"%u]);
   ("NuktaMap"%u, ["x"%u]);
   ("OmMap"%u, ["oum"%u]);
   ("SignMap"%u, ["&"%u; "|"%u; "||"%u]);
   ("Aytham"%u, ["~H"%u]);
   ("NumeralMap"%u, ["0"%u; "1"%u; "2"%u; "3"%u; "4"%u; "5"%u; "6"%u; "7"%u;
    "8"%u; "9"%u])].

(** aksharamukha/ScriptMap/Roman/BarahaSouth.py:5-148 *)
Definition S_Roman_BarahaSouth : table :=
  [("VowelMap"%u, ["a"%u; "aa"%u; "i"%u; "ee"%u; "u"%u; "oo"%u; "Ru"%u; "RU"%u;
    "~lu"%u; "~lU"%u; "E"%u; "ai"%u; "O"%u; "au"%u]);
   ("SouthVowelMap"%u, ["e"%u; "o"%u]);
   ("ModernVowelMap"%u, ["~e"%u; "~o"%u]);
   ("SinhalaVowelMap"%u, ["~~e"%u]);
   ("VowelSignMap"%u, ["aa"%u; "i"%u; "ee"%u; "u"%u; "oo"%u; "Ru"%u; "RU"%u; "~lu"%u;
    "~lU"%u; "E"%u; "ai"%u; "O"%u; "au"%u]);
   ("SouthVowelSignMap"%u, ["e"%u; "o"%u]);
   ("ModernVowelSignMap"%u, ["~e"%u; "~o"%u]);
   ("SinhalaVowelSignMap"%u, ["~~e"%u]);
   ("AyogavahaMap"%u, ["~M"%u; "M"%u; "H"%u]);
   ("ViramaMap"%u, ["×"%u]);
   ("ConsonantMap"%u, ["k"%u; "kh"%u; "g"%u; "gh"%u; "~g"%u; "c"%u; "C"%u; "j"%u;
    "jh"%u; "~j"%u; "T"%u; "Th"%u; "D"%u; "Dh"%u; "N"%u; "t"%u;
    "th"%u; "d"%u; "dh"%u; "n"%u; "p"%u; "ph"%u; "b"%u; "bh"%u;
    "m"%u; "y"%u; "r"%u; "l"%u; "v"%u; "S"%u; "Sh"%u; "s"%u;
    "h"%u]);
   ("SouthConsonantMap"%u, ["L"%u; "Lx"%u; "rx"%u; "nx"%u]);
   ("NuktaConsonantMap"%u, ["kx"%u; "Kx"%u; "gx"%u; "z"%u; "Dx"%u; "Dhx"%u; "f"%u; "yx"%u]);
   ("SinhalaConsonantMap"%u, ["~ng"%u; "~nj"%u; "~nD"%u; "~nd"%u; "~mb"%u]);
   ("NuktaMap"%u, ["x"%u]);
   ("OmMap"%u, ["oum"%u]);
   ("SignMap"%u, ["&"%u; "|"%u; "||"%u]);
   ("Aytham"%u, ["~H"%u]);
   ("NumeralMap"%u, ["0"%u; "1"%u; "2"%u; "3"%u; "4"%u; "5"%u; "6"%u; "7"%u;
    "8"%u; "9"%u])].

(** aksharamukha/ScriptMap/Roman/BengaliRomanLoC.py:5-148 *)
Definition S_Roman_BengaliRomanLoC : table :=
  [("VowelMap"%u, ["a"%u; "ā"%u; "i"%u; "ī"%u; "u"%u; "ū"%u; "r̥"%u; "r̥̄"%u;
    "l̥"%u; "l̥̄"%u; "e"%u; "ai"%u; "o"%u; "au"%u]);
   ("SouthVowelMap"%u, ["ĕ"%u; "ŏ"%u]);
   ("ModernVowelMap"%u, ["æ"%u; "ô"%u]);
   ("SinhalaVowelMap"%u, ["ǣ"%u]);
   ("VowelSignMap"%u, ["ā"%u; "i"%u; "ī"%u; "u"%u; "ū"%u; "r̥"%u; "r̥̄"%u; "l̥"%u;
    "l̥̄"%u; "e"%u; "ai"%u; "o"%u; "au"%u]);
   ("SouthVowelSignMap"%u, ["ĕ"%u; "ŏ"%u]);
   ("ModernVowelSignMap"%u, ["æ"%u; "ô"%u]);
   ("SinhalaVowelSignMap"%u, ["ǣ"%u]);
   ("AyogavahaMap"%u, ["m̐"%u; "ṃ"%u; "ḥ"%u]);
   ("ViramaMap"%u, ["×"%u]);
   ("ConsonantMap"%u, ["k"%u; "kh"%u; "g"%u; "gh"%u; "ṅ"%u; "c"%u; "ch"%u; "j"%u;
    "jh"%u; "ñ"%u; "ṭ"%u; "ṭh"%u; "ḍ"%u; "ḍh"%u; "ṇ"%u; "t"%u;
    "th"%u; "d"%u; "dh"%u; "n"%u; "p"%u; "ph"%u; "b"%u; "bh"%u;
    "m"%u; "y"%u; "r"%u; "l"%u; "v"%u; "ś"%u; "sh"%u; "s"%u;
    "h"%u]);
   ("SouthConsonantMap"%u, ["ḷ"%u; "ḻ"%u; "ṟ"%u; "ṉ"%u]);
   ("NuktaConsonantMap"%u, ["q"%u; "k͟h"%u; "ġ"%u; "z"%u; "ṛ"%u; "ṛh"%u; "f"%u; "ẏ"%u]);
   ("SinhalaConsonantMap"%u, ["n̆g"%u; "n̆j"%u; "n̆ḍ"%u; "n̆d"%u; "m̆b"%u]);
   ("NuktaMap"%u, [[0x308]%N]);
   ("OmMap"%u, ["ōṃ"%u]);
   ("Aytham"%u, ["ḵ"%u]);
   ("SignMap"%u, ["’"%u; "."%u; ".."%u]);
   ("NumeralMap"%u, ["0"%u; "1"%u; "2"%u; "3"%u; "4"%u; "5"%u; "6"%u; "7"%u;
    "8"%u; "9"%u])].

(** aksharamukha/ScriptMap/Roman/BurmeseRomanLoC.py:5-149 *)
Definition S_Roman_BurmeseRomanLoC : table :=
  [("VowelMap"%u, ["a"%u; "ā"%u; "i"%u; "ī"%u; "u"%u; "ū"%u; "ṛ"%u; "ṝ"%u;
    "l̤"%u; "l̤̄"%u; "e"%u; "ai"%u; "o"%u; "au"%u]);
   ("SouthVowelMap"%u, ["ĕ"%u; "ŏ"%u]);
   ("ModernVowelMap"%u, ["æ"%u; "ô"%u]);
   ("SinhalaVowelMap"%u, ["ǣ"%u]);
   ("VowelSignMap"%u, ["ā"%u; "i"%u; "ī"%u; "u"%u; "ū"%u; "ṛ"%u; "ṝ"%u; "l̤"%u;
    "l̤̄"%u; "e"%u; "ai"%u; "o"%u; "au"%u]);
   ("SouthVowelSignMap"%u, ["ĕ"%u; "ŏ"%u]);
   ("ModernVowelSignMap"%u, ["æ"%u; "ô"%u]);
   ("SinhalaVowelSignMap"%u, ["ǣ"%u]);
   ("AyogavahaMap"%u, ["m̐"%u; "ṃ"%u; "ḥ"%u]);
   ("ViramaMap"%u, ["×"%u]);
   ("ConsonantMap"%u, ["k"%u; "kh"%u; "g"%u; "gh"%u; "ṅ"%u; "c"%u; "ch"%u; "j"%u;
    "jh"%u; "ñ"%u; "ṭ"%u; "ṭh"%u; "ḍ"%u; "ḍh"%u; "ṇ"%u; "t"%u;
    "th"%u; "d"%u; "dh"%u; "n"%u; "p"%u; "ph"%u; "b"%u; "bh"%u;
    "m"%u; "y"%u; "r"%u; "l"%u; "v"%u; "ś"%u; "ṣ"%u; "s"%u;
    "h"%u]);
   ("SouthConsonantMap"%u, ["ḷ"%u; "ḻ"%u; "ṟ"%u; "ṉ"%u]);
   ("NuktaConsonantMap"%u, ["q"%u; "k͟h"%u; "ġ"%u; "z"%u; "r̤"%u; "r̤h"%u; "f"%u; "ẏ"%u]);
   ("SinhalaConsonantMap"%u, ["n̆g"%u; "n̆j"%u; "n̆ḍ"%u; "n̆d"%u; "m̆b"%u]);
   ("NuktaMap"%u, [[0x308]%N]);
   ("OmMap"%u, ["oṃ"%u]);
   ("SignMap"%u, ["'"%u; "."%u; ".."%u]);
   ("Aytham"%u, ["ḵ"%u]);
   ("NumeralMap"%u, ["0"%u; "1"%u; "2"%u; "3"%u; "4"%u; "5"%u; "6"%u; "7"%u;
    "8"%u; "9"%u])].

(** aksharamukha/ScriptMap/Roman/DevanagariRomanLoC.py:5-148 *)
Definition S_Roman_DevanagariRomanLoC : table :=
  [("VowelMap"%u, ["a"%u; "ā"%u; "i"%u; "ī"%u; "u"%u; "ū"%u; "r̥"%u; "r̥̄"%u;
    "l̥"%u; "l̥̄"%u; "e"%u; "ai"%u; "o"%u; "au"%u]);
   ("SouthVowelMap"%u, ["ĕ"%u; "ŏ"%u]);
   ("ModernVowelMap"%u, ["ê"%u; "ô"%u]);
   ("SinhalaVowelMap"%u, ["ǣ"%u]);
   ("VowelSignMap"%u, ["ā"%u; "i"%u; "ī"%u; "u"%u; "ū"%u; "r̥"%u; "r̥̄"%u; "l̥"%u;
    "l̥̄"%u; "e"%u; "ai"%u; "o"%u; "au"%u]);
   ("SouthVowelSignMap"%u, ["ĕ"%u; "ŏ"%u]);
   ("ModernVowelSignMap"%u, ["ê"%u; "ô"%u]);
   ("SinhalaVowelSignMap"%u, ["ǣ"%u]);
   ("AyogavahaMap"%u, ["m̐"%u; "ṃ"%u; "ḥ"%u]);
   ("ViramaMap"%u, ["×"%u]);
   ("ConsonantMap"%u, ["k"%u; "kh"%u; "g"%u; "gh"%u; "ṅ"%u; "c"%u; "ch"%u; "j"%u;
    "jh"%u; "ñ"%u; "ṭ"%u; "ṭh"%u; "ḍ"%u; "ḍh"%u; "ṇ"%u; "t"%u;
    "th"%u; "d"%u; "dh"%u; "n"%u; "p"%u; "ph"%u; "b"%u; "bh"%u;
    "m"%u; "y"%u; "r"%u; "l"%u; "v"%u; "ś"%u; "ṣ"%u; "s"%u;
    "h"%u]);
   ("SouthConsonantMap"%u, ["ḻ"%u; "l̳"%u; "ṟ"%u; "ṉ"%u]);
   ("NuktaConsonantMap"%u, ["q"%u; "k͟h"%u; "g͟h"%u; "z"%u; "ṛ"%u; "ṛh"%u; "f"%u; "ẏ"%u]);
   ("SinhalaConsonantMap"%u, ["n̆g"%u; "n̆j"%u; "n̆ḍ"%u; "n̆d"%u; "m̆b"%u]);
   ("NuktaMap"%u, [[0x308]%N]);
   ("OmMap"%u, ["oṃ"%u]);
   ("Aytham"%u, ["ḵ"%u]);
   ("SignMap"%u, ["’"%u; "."%u; ".."%u]);
   ("NumeralMap"%u, ["0"%u; "1"%u; "2"%u; "3"%u; "4"%u; "5"%u; "6"%u; "7"%u;
    "8"%u; "9"%u])].

(** aksharamukha/ScriptMap/Roman/GreekModern.py:5-149 *)
Definition S_Roman_GreekModern : table :=
  [("VowelMap"%u, ["a"%u; "A"%u; "i"%u; "I"%u; "u"%u; "U"%u; "R"%u; "RR"%u;
    "lR"%u; "lRR"%u; "e"%u; "ai"%u; "o"%u; "au"%u]);
   ("SouthVowelMap"%u, ["E"%u; "O"%u]);
   ("ModernVowelMap"%u, ["aE"%u; "aO"%u]);
   ("SinhalaVowelMap"%u, ["AE"%u]);
   ("VowelSignMap"%u, ["A"%u; "i"%u; "I"%u; "u"%u; "U"%u; "R"%u; "RR"%u; "lR"%u;
    "lRR"%u; "e"%u; "ai"%u; "o"%u; "au"%u]);
   ("SouthVowelSignMap"%u, ["E"%u; "O"%u]);
   ("ModernVowelSignMap"%u, ["aE"%u; "aO"%u]);
   ("SinhalaVowelSignMap"%u, ["AE"%u]);
   ("AyogavahaMap"%u, ["~"%u; "M"%u; "H"%u]);
   ("ViramaMap"%u, ["×"%u]);
   ("ConsonantMap"%u, ["k"%u; "kh"%u; "g"%u; "gh"%u; "G"%u; "c"%u; "ch"%u; "j"%u;
    "jh"%u; "J"%u; "T"%u; "Th"%u; "D"%u; "Dh"%u; "N"%u; "t"%u;
    "th"%u; "d"%u; "dh"%u; "n"%u; "p"%u; "ph"%u; "b"%u; "bh"%u;
    "m"%u; "y"%u; "r"%u; "l"%u; "v"%u; "z"%u; "S"%u; "s"%u;
    "h"%u]);
   ("SouthConsonantMap"%u, ["L"%u; "Z"%u; "r2"%u; "n2"%u]);
   ("NuktaConsonantMap"%u, ["q"%u; "qh"%u; "g2"%u; "z2"%u; "r3"%u; "r3h"%u; "f"%u; "Y"%u]);
   ("SinhalaConsonantMap"%u, ["n*g"%u; "n*j"%u; "n*D"%u; "n*d"%u; "m*b"%u]);
   ("NuktaMap"%u, ["Q"%u]);
   ("OmMap"%u, ["oM"%u]);
   ("SignMap"%u, ["'"%u; "."%u; ".."%u]);
   ("Aytham"%u, ["K"%u]);
   ("NumeralMap"%u, ["0"%u; "1"%u; "2"%u; "3"%u; "4"%u; "5"%u; "6"%u; "7"%u;
    "8"%u; "9"%u])].

(** aksharamukha/ScriptMap/Roman/GujaratiRomanLoC.py:5-148 *)
Definition S_Roman_GujaratiRomanLoC : table :=
  [("VowelMap"%u, ["a"%u; "ā"%u; "i"%u; "ī"%u; "u"%u; "ū"%u; "r̥"%u; "r̥̄"%u;
    "l̥"%u; "l̥̄"%u; "e"%u; "ai"%u; "o"%u; "au"%u]);
   ("SouthVowelMap"%u, ["ĕ"%u; "ŏ"%u]);
   ("ModernVowelMap"%u, ["ê"%u; "ô"%u]);
   ("SinhalaVowelMap"%u, ["ǣ"%u]);
   ("VowelSignMap"%u, ["ā"%u; "i"%u; "ī"%u; "u"%u; "ū"%u; "r̥"%u; "r̥̄"%u; "l̥"%u;
    "l̥̄"%u; "e"%u; "ai"%u; "o"%u; "au"%u]);
   ("SouthVowelSignMap"%u, ["ĕ"%u; "ŏ"%u]);
   ("ModernVowelSignMap"%u, ["ê"%u; "ô"%u]);
   ("SinhalaVowelSignMap"%u, ["ǣ"%u]);
   ("AyogavahaMap"%u, ["m̐"%u; "ṃ"%u; "ḥ"%u]);
   ("ViramaMap"%u, ["×"%u]);
   ("ConsonantMap"%u, ["k"%u; "kh"%u; "g"%u; "gh"%u; "ṅ"%u; "c"%u; "ch"%u; "j"%u;
    "jh"%u; "ñ"%u; "ṭ"%u; "ṭh"%u; "ḍ"%u; "ḍh"%u; "ṇ"%u; "t"%u;
    "th"%u; "d"%u; "dh"%u; "n"%u; "p"%u; "ph"%u; "b"%u; "bh"%u;
    "m"%u; "y"%u; "r"%u; "l"%u; "v"%u; "ś"%u; "sh"%u; "s"%u;
    "h"%u]);
   ("SouthConsonantMap"%u, ["ḷ"%u; "ḻ"%u; "ṟ"%u; "ṉ"%u]);
   ("NuktaConsonantMap"%u, ["q"%u; "k͟h"%u; "g͟h"%u; "z"%u; "ṛ"%u; "ṛh"%u; "f"%u; "ẏ"%u]);
   ("SinhalaConsonantMap"%u, ["n̆g"%u; "n̆j"%u; "n̆ḍ"%u; "n̆d"%u; "m̆b"%u]);
   ("NuktaMap"%u, [[0x308]%N]);
   ("OmMap"%u, ["oṃ"%u]);
   ("Aytham"%u, ["ḵ"%u]);
   ("SignMap"%u, ["’"%u; "."%u; ".."%u]);
   ("NumeralMap"%u, ["0"%u; "1"%u; "2"%u; "3"%u; "4"%u; "5"%u; "6"%u; "7"%u;
    "8"%u; "9"%u])].

(** aksharamukha/ScriptMap/Roman/GurmukhiLoCRomanLoC.py:5-148 *)
Definition S_Roman_GurmukhiLoCRomanLoC : table :=
  [("VowelMap"%u, ["a"%u; "ā"%u; "i"%u; "ī"%u; "u"%u; "ū"%u; "r̥"%u; "r̥̄"%u;
    "l̥"%u; "l̥̄"%u; "e"%u; "ai"%u; "o"%u; "au"%u]);
   ("SouthVowelMap"%u, ["ĕ"%u; "ŏ"%u]);
   ("ModernVowelMap"%u, ["ê"%u; "ô"%u]);
   ("SinhalaVowelMap"%u, ["ǣ"%u]);
   ("VowelSignMap"%u, ["ā"%u; "i"%u; "ī"%u; "u"%u; "ū"%u; "r̥"%u; "r̥̄"%u; "l̥"%u;
    "l̥̄"%u; "e"%u; "ai"%u; "o"%u; "au"%u]);
   ("SouthVowelSignMap"%u, ["ĕ"%u; "ŏ"%u]);
   ("ModernVowelSignMap"%u, ["ê"%u; "ô"%u]);
   ("SinhalaVowelSignMap"%u, ["ǣ"%u]);
   ("AyogavahaMap"%u, ["m̆"%u; "ṃ"%u; "ḥ"%u]);
   ("ViramaMap"%u, ["×"%u]);
   ("ConsonantMap"%u, ["k"%u; "kh"%u; "g"%u; "gh"%u; "ṅ"%u; "c"%u; "ch"%u; "j"%u;
    "jh"%u; "ñ"%u; "ṭ"%u; "ṭh"%u; "ḍ"%u; "ḍh"%u; "ṇ"%u; "t"%u;
    "th"%u; "d"%u; "dh"%u; "n"%u; "p"%u; "ph"%u; "b"%u; "bh"%u;
    "m"%u; "y"%u; "r"%u; "l"%u; "w"%u; "sh"%u; "ṣ"%u; "s"%u;
    "h"%u]);
   ("SouthConsonantMap"%u, ["ḷ"%u; "l̳"%u; "ṟ"%u; "ṉ"%u]);
   ("NuktaConsonantMap"%u, ["q"%u; "k͟h"%u; "g͟h"%u; "z"%u; "ṛ"%u; "ṛh"%u; "f"%u; "ẏ"%u]);
   ("SinhalaConsonantMap"%u, ["n̆g"%u; "n̆j"%u; "n̆ḍ"%u; "n̆d"%u; "m̆b"%u]);
   ("NuktaMap"%u, [[0x308]%N]);
   ("OmMap"%u, ["oṁ"%u]);
   ("Aytham"%u, ["ḵ"%u]);
   ("SignMap"%u, ["’"%u; "."%u; ".."%u]);
   ("NumeralMap"%u, ["0"%u; "1"%u; "2"%u; "3"%u; "4"%u; "5"%u; "6"%u; "7"%u;
    "8"%u; "9"%u])].

(** aksharamukha/ScriptMap/Roman/HK.py:5-149 *)
Definition S_Roman_HK : table :=
  [("VowelMap"%u, ["a"%u; "A"%u; "i"%u; "I"%u; "u"%u; "U"%u; "R"%u; "RR"%u;
    "lR"%u; "lRR"%u; "e"%u; "ai"%u; "o"%u; "au"%u]);
   ("SouthVowelMap"%u, ["E"%u; "O"%u]);
   ("ModernVowelMap"%u, ["aE"%u; "aO"%u]);
   ("SinhalaVowelMap"%u, ["AE"%u]);
   ("VowelSignMap"%u, ["A"%u; "i"%u; "I"%u; "u"%u; "U"%u; "R"%u; "RR"%u; "lR"%u;
    "lRR"%u; "e"%u; "ai"%u; "o"%u; "au"%u]);
   ("SouthVowelSignMap"%u, ["E"%u; "O"%u]);
   ("ModernVowelSignMap"%u, ["aE"%u; "aO"%u]);
   ("SinhalaVowelSignMap"%u, ["AE"%u]);
   ("AyogavahaMap"%u, ["~"%u; "M"%u; "H"%u]);
   ("ViramaMap"%u, ["×"%u]);
   ("ConsonantMap"%u, ["k"%u; "kh"%u; "g"%u; "gh"%u; "G"%u; "c"%u; "ch"%u; "j"%u;
    "jh"%u; "J"%u; "T"%u; "Th"%u; "D"%u; "Dh"%u; "N"%u; "t"%u;
    "th"%u; "d"%u; "dh"%u; "n"%u; "p"%u; "ph"%u; "b"%u; "bh"%u;
    "m"%u; "y"%u; "r"%u; "l"%u; "v"%u; "z"%u; "S"%u; "s"%u;
    "h"%u]);
   ("SouthConsonantMap"%u, ["L"%u; "Z"%u; "r2"%u; "n2"%u]);
   ("NuktaConsonantMap"%u, ["q"%u; "qh"%u; "g2"%u; "z2"%u; "r3"%u; "r3h"%u; "f"%u; "Y"%u]);
   ("SinhalaConsonantMap"%u, ["n*g"%u; "n*j"%u; "n*D"%u; "n*d"%u; "m*b"%u]);
   ("NuktaMap"%u, ["Q"%u]);
   ("OmMap"%u, ["oM"%u]);
   ("SignMap"%u, ["'"%u; "."%u; ".."%u]);
   ("Aytham"%u, ["K"%u]);
   ("NumeralMap"%u, ["0"%u; "1"%u; "2"%u; "3"%u; "4"%u; "5"%u; "6"%u; "7"%u;
    "8"%u; "9"%u])].

(** aksharamukha/ScriptMap/Roman/HanifiRohingya.py:5-149 *)
Definition S_Roman_HanifiRohingya : table :=
  [("VowelMap"%u, ["𐴝"%u; "𐴝𐴤"%u; "𐴞"%u; "𐴞𐴤"%u; "𐴟"%u; "𐴟𐴤"%u; "𐴌𐴟ʽ"%u; "𐴌𐴟𐴤ʽ"%u;
    "𐴓𐴟ʽ"%u; "𐴓𐴟𐴤ʽ"%u; "𐴠𐴤"%u; "𐴝𐴙"%u; "𐴡𐴤"%u; "𐴝𐴗"%u]);
   ("SouthVowelMap"%u, ["𐴠"%u; "𐴡"%u]);
   ("ModernVowelMap"%u, ["𐴠ʽ"%u; "𐴝𐴤ʽ"%u]);
   ("SinhalaVowelMap"%u, ["𐴠𐴤ʽ"%u]);
   ("VowelSignMap"%u, ["𐴝𐴤"%u; "𐴞"%u; "𐴞𐴤"%u; "𐴟"%u; "𐴟𐴤"%u; "𐴌𐴟ʽ"%u; "𐴌𐴟𐴤ʽ"%u; "𐴓𐴟ʽ"%u;
    "𐴓𐴟𐴤ʽ"%u; "𐴠𐴤"%u; "𐴝𐴙"%u; "𐴡𐴤"%u; "𐴝𐴗"%u]);
   ("SouthVowelSignMap"%u, ["𐴠"%u; "𐴡"%u]);
   ("ModernVowelSignMap"%u, ["𐴠ʽ"%u; "𐴝𐴤ʽ"%u]);
   ("SinhalaVowelSignMap"%u, ["𐴠𐴤ʽ"%u]);
   ("AyogavahaMap"%u, ["𐴣ʽ"%u; "𐴣"%u; "𐴇ʽ"%u]);
   ("ViramaMap"%u, ["×"%u]);
   ("ConsonantMap"%u, ["𐴑"%u; "𐴑ʽ"%u; "𐴒"%u; "𐴒ʽ"%u; "𐴚"%u; "𐴆"%u; "𐴆ʽ"%u; "𐴅"%u;
    "𐴅ʽ"%u; "𐴛"%u; "𐴄"%u; "𐴄ʽ"%u; "𐴋"%u; "𐴋ʽ"%u; "𐴕ʽ"%u; "𐴃"%u;
    "𐴃ʽ"%u; "𐴊"%u; "𐴊ʽ"%u; "𐴕"%u; "𐴂"%u; "𐴂ʽ"%u; "𐴁"%u; "𐴁ʽ"%u;
    "𐴔"%u; "𐴘"%u; "𐴌"%u; "𐴓"%u; "𐴖"%u; "𐴐"%u; "𐴐ʽ"%u; "𐴏"%u;
    "𐴇"%u]);
   ("SouthConsonantMap"%u, ["𐴓ʽ"%u; "𐴓ʽ"%u; "𐴌ʽ"%u; "𐴕ʽ"%u]);
   ("NuktaConsonantMap"%u, ["𐴑ʽ"%u; "𐴈"%u; "𐴒ʽ"%u; "𐴎"%u; "𐴍"%u; "𐴍ʽ"%u; "𐴉"%u; "𐴘ʽ"%u]);
   ("SinhalaConsonantMap"%u, ["𐴣𐴒ʽ"%u; "𐴣𐴅ʽ"%u; "𐴣𐴋ʽ"%u; "𐴣𐴊ʽ"%u; "𐴣𐴁ʽ"%u]);
   ("NuktaMap"%u, ["ʾ"%u]);
   ("OmMap"%u, ["𐴀𐴡𐴴𐴔"%u]);
   ("SignMap"%u, ["ʽʽ"%u; "۔"%u; "۔۔"%u]);
   ("Aytham"%u, ["𐴈ʽ"%u]);
   ("NumeralMap"%u, ["𐴰"%u; "𐴱"%u; "𐴲"%u; "𐴳"%u; "𐴴"%u; "𐴵"%u; "𐴶"%u; "𐴷"%u;
    "𐴸"%u; "𐴹"%u])].

(** aksharamukha/ScriptMap/Roman/IAST.py:5-149 *)
Definition S_Roman_IAST : table :=
  [("VowelMap"%u, ["a"%u; "ā"%u; "i"%u; "ī"%u; "u"%u; "ū"%u; "ṛ"%u; "ṝ"%u;
    "ḷ"%u; "ḹ"%u; "e"%u; "ai"%u; "o"%u; "au"%u]);
   ("SouthVowelMap"%u, ["ĕ"%u; "ŏ"%u]);
   ("ModernVowelMap"%u, ["æ"%u; "ô"%u]);
   ("SinhalaVowelMap"%u, ["ǣ"%u]);
   ("VowelSignMap"%u, ["ā"%u; "i"%u; "ī"%u; "u"%u; "ū"%u; "ṛ"%u; "ṝ"%u; "ḷ"%u;
    "ḹ"%u; "e"%u; "ai"%u; "o"%u; "au"%u]);
   ("SouthVowelSignMap"%u, ["ĕ"%u; "ŏ"%u]);
   ("ModernVowelSignMap"%u, ["æ"%u; "ô"%u]);
   ("SinhalaVowelSignMap"%u, ["ǣ"%u]);
   ("AyogavahaMap"%u, ["m̐"%u; "ṃ"%u; "ḥ"%u]);
   ("ViramaMap"%u, ["×"%u]);
   ("ConsonantMap"%u, ["k"%u; "kh"%u; "g"%u; "gh"%u; "ṅ"%u; "c"%u; "ch"%u; "j"%u;
    "jh"%u; "ñ"%u; "ṭ"%u; "ṭh"%u; "ḍ"%u; "ḍh"%u; "ṇ"%u; "t"%u;
    "th"%u; "d"%u; "dh"%u; "n"%u; "p"%u; "ph"%u; "b"%u; "bh"%u;
    "m"%u; "y"%u; "r"%u; "l"%u; "v"%u; "ś"%u; "ṣ"%u; "s"%u;
    "h"%u]);
   ("SouthConsonantMap"%u, ["l̤"%u; "ḻ"%u; "ṟ"%u; "ṉ"%u]);
   ("NuktaConsonantMap"%u, ["q"%u; "k͟h"%u; "ġ"%u; "z"%u; "r̤"%u; "r̤h"%u; "f"%u; "ẏ"%u]);
   ("SinhalaConsonantMap"%u, ["n̆g"%u; "n̆j"%u; "n̆ḍ"%u; "n̆d"%u; "m̆b"%u]);
   ("NuktaMap"%u, [[0x308]%N]);
   ("OmMap"%u, ["oṃ"%u]);
   ("SignMap"%u, ["'"%u; "."%u; ".."%u]);
   ("Aytham"%u, ["ḵ"%u]);
   ("NumeralMap"%u, ["0"%u; "1"%u; "2"%u; "3"%u; "4"%u; "5"%u; "6"%u; "7"%u;
    "8"%u; "9"%u])].

(** aksharamukha/ScriptMap/Roman/IASTPali.py:5-149 *)
Definition S_Roman_IASTPali : table :=
  [("VowelMap"%u, ["a"%u; "ā"%u; "i"%u; "ī"%u; "u"%u; "ū"%u; "ṛ"%u; "ṝ"%u;
    "l̤"%u; "l̤̄"%u; "e"%u; "ai"%u; "o"%u; "au"%u]);
   ("SouthVowelMap"%u, ["ĕ"%u; "ŏ"%u]);
   ("ModernVowelMap"%u, ["æ"%u; "ô"%u]);
   ("SinhalaVowelMap"%u, ["ǣ"%u]);
   ("VowelSignMap"%u, ["ā"%u; "i"%u; "ī"%u; "u"%u; "ū"%u; "ṛ"%u; "ṝ"%u; "l̤"%u;
    "l̤̄"%u; "e"%u; "ai"%u; "o"%u; "au"%u]);
   ("SouthVowelSignMap"%u, ["ĕ"%u; "ŏ"%u]);
   ("ModernVowelSignMap"%u, ["æ"%u; "ô"%u]);
   ("SinhalaVowelSignMap"%u, ["ǣ"%u]);
   ("AyogavahaMap"%u, ["m̐"%u; "ṃ"%u; "ḥ"%u]);
   ("ViramaMap"%u, ["×"%u]);
   ("ConsonantMap"%u, ["k"%u; "kh"%u; "g"%u; "gh"%u; "ṅ"%u; "c"%u; "ch"%u; "j"%u;
    "jh"%u; "ñ"%u; "ṭ"%u; "ṭh"%u; "ḍ"%u; "ḍh"%u; "ṇ"%u; "t"%u;
    "th"%u; "d"%u; "dh"%u; "n"%u; "p"%u; "ph"%u; "b"%u; "bh"%u;
    "m"%u; "y"%u; "r"%u; "l"%u; "v"%u; "ś"%u; "ṣ"%u; "s"%u;
    "h"%u]);
   ("SouthConsonantMap"%u, ["ḷ"%u; "ḻ"%u; "ṟ"%u; "ṉ"%u]);
   ("NuktaConsonantMap"%u, ["q"%u; "k͟h"%u; "ġ"%u; "z"%u; "r̤"%u; "r̤h"%u; "f"%u; "ẏ"%u]);
   ("SinhalaConsonantMap"%u, ["n̆g"%u; "n̆j"%u; "n̆ḍ"%u; "n̆d"%u; "m̆b"%u]);
   ("NuktaMap"%u, [[0x308]%N]);
   ("OmMap"%u, ["oṃ"%u]);
   ("SignMap"%u, ["'ʽ"%u; "."%u; ".."%u]);
   ("Aytham"%u, ["ḵ"%u]);
   ("NumeralMap"%u, ["0"%u; "1"%u; "2"%u; "3"%u; "4"%u; "5"%u; "6"%u; "7"%u;
    "8"%u; "9"%u])].

(** aksharamukha/ScriptMap/Roman/IPA.py:6-150 *)
Definition S_Roman_IPA : table :=
  [("VowelMap"%u, ["ə"%u; "ɑː"%u; "ɪ"%u; "iː"%u; "u"%u; "uː"%u; "ɾɨ"%u; "ɾɨː"%u;
    "lɨ"%u; "lɨː"%u; "eː"%u; "əɪ"%u; "oː"%u; "əu"%u]);
   ("SouthVowelMap"%u, ["e"%u; "o"%u]);
   ("ModernVowelMap"%u, ["æ"%u; "ɔ"%u]);
   ("SinhalaVowelMap"%u, ["æː"%u]);
   ("VowelSignMap"%u, ["ɑː"%u; "ɪ"%u; "iː"%u; "u"%u; "uː"%u; "ɾɨ"%u; "ɾɨː"%u; "lɨ"%u;
    "lɨː"%u; "eː"%u; "əɪ"%u; "oː"%u; "əu"%u]);
   ("SouthVowelSignMap"%u, ["e"%u; "o"%u]);
   ("ModernVowelSignMap"%u, ["æ"%u; "ɔ"%u]);
   ("SinhalaVowelSignMap"%u, ["æː"%u]);
   ("AyogavahaMap"%u, [[0x303; 0x2BD]%N; [0x303]%N; "h"%u]);
   ("ViramaMap"%u, ["×"%u]);
   ("ConsonantMap"%u, ["k"%u; "kʰ"%u; "g"%u; "gʰ"%u; "ŋ"%u; "t͡ʃ"%u; "t͡ʃʰ"%u; "d͡ʒ"%u;
    "d͡ʒʰ"%u; "ɲ"%u; "ʈ"%u; "ʈʰ"%u; "ɖ"%u; "ɖʰ"%u; "ɳ"%u; "t̪"%u;
    "t̪ʰ"%u; "d̪"%u; "d̪ʰ"%u; "n̪"%u; "p"%u; "pʰ"%u; "b"%u; "bʰ"%u;
    "m"%u; "j"%u; "ɾ"%u; "l"%u; "ʋ"%u; "ʃ"%u; "ʂ"%u; "s̪"%u;
    "ɦ"%u]);
   ("SouthConsonantMap"%u, ["ɭ"%u; "ɻ"%u; "r"%u; "n"%u]);
   ("NuktaConsonantMap"%u, ["q"%u; "x"%u; "ɣ"%u; "z"%u; "ɽ"%u; "ɽʰ"%u; "f"%u; "ẏ"%u]);
   ("SinhalaConsonantMap"%u, ["ᵑɡ"%u; "ᶮd͡ʒ"%u; "ᶯɖ"%u; "ⁿd"%u; "ᵐb"%u]);
   ("NuktaMap"%u, [[0x308]%N]);
   ("OmMap"%u, ["oːm"%u]);
   ("SignMap"%u, ["ə̸"%u; "."%u; ".."%u]);
   ("Aytham"%u, ["xʽ"%u]);
   ("NumeralMap"%u, ["0"%u; "1"%u; "2"%u; "3"%u; "4"%u; "5"%u; "6"%u; "7"%u;
    "8"%u; "9"%u])].

(** aksharamukha/ScriptMap/Roman/ISO.py:5-148 *)
Definition S_Roman_ISO : table :=
  [("VowelMap"%u, ["a"%u; "ā"%u; "i"%u; "ī"%u; "u"%u; "ū"%u; "r̥"%u; "r̥̄"%u;
    "l̥"%u; "l̥̄"%u; "ē"%u; "ai"%u; "ō"%u; "au"%u]);
   ("SouthVowelMap"%u, ["e"%u; "o"%u]);
   ("ModernVowelMap"%u, ["æ"%u; "ô"%u]);
   ("SinhalaVowelMap"%u, ["ǣ"%u]);
   ("VowelSignMap"%u, ["ā"%u; "i"%u; "ī"%u; "u"%u; "ū"%u; "r̥"%u; "r̥̄"%u; "l̥"%u;
    "l̥̄"%u; "ē"%u; "ai"%u; "ō"%u; "au"%u]);
   ("SouthVowelSignMap"%u, ["e"%u; "o"%u]);
   ("ModernVowelSignMap"%u, ["æ"%u; "ô"%u]);
   ("SinhalaVowelSignMap"%u, ["ǣ"%u]);
   ("AyogavahaMap"%u, ["m̐"%u; "ṁ"%u; "ḥ"%u]);
   ("ViramaMap"%u, ["×"%u]);
   ("ConsonantMap"%u, ["k"%u; "kh"%u; "g"%u; "gh"%u; "ṅ"%u; "c"%u; "ch"%u; "j"%u;
    "jh"%u; "ñ"%u; "ṭ"%u; "ṭh"%u; "ḍ"%u; "ḍh"%u; "ṇ"%u; "t"%u;
    "th"%u; "d"%u; "dh"%u; "n"%u; "p"%u; "ph"%u; "b"%u; "bh"%u;
    "m"%u; "y"%u; "r"%u; "l"%u; "v"%u; "ś"%u; "ṣ"%u; "s"%u;
    "h"%u]);
   ("SouthConsonantMap"%u, ["ḷ"%u; "ḻ"%u; "ṟ"%u; "ṉ"%u]);
   ("NuktaConsonantMap"%u, ["q"%u; "k͟h"%u; "ġ"%u; "z"%u; "ṛ"%u; "ṛh"%u; "f"%u; "ẏ"%u]);
   ("SinhalaConsonantMap"%u, ["n̆g"%u; "n̆j"%u; "n̆ḍ"%u; "n̆d"%u; "m̆b"%u]);
   ("NuktaMap"%u, [[0x308]%N]);
   ("OmMap"%u, ["ōṁ"%u]);
   ("Aytham"%u, ["ḵ"%u]);
   ("SignMap"%u, ["’"%u; "."%u; ".."%u]);
   ("NumeralMap"%u, ["0"%u; "1"%u; "2"%u; "3"%u; "4"%u; "5"%u; "6"%u; "7"%u;
    "8"%u; "9"%u])].

(** aksharamukha/ScriptMap/Roman/ISOPali.py:5-148 *)
Definition S_Roman_ISOPali : table :=
  [("VowelMap"%u, ["a"%u; "ā"%u; "i"%u; "ī"%u; "u"%u; "ū"%u; "r̥"%u; "r̥̄"%u;
    "l̥"%u; "l̥̄"%u; "e"%u; "ai"%u; "o"%u; "au"%u]);
   ("SouthVowelMap"%u, ["ĕ"%u; "ŏ"%u]);
   ("ModernVowelMap"%u, ["æ"%u; "ô"%u]);
   ("SinhalaVowelMap"%u, ["ǣ"%u]);
   ("VowelSignMap"%u, ["ā"%u; "i"%u; "ī"%u; "u"%u; "ū"%u; "r̥"%u; "r̥̄"%u; "l̥"%u;
    "l̥̄"%u; "e"%u; "ai"%u; "o"%u; "au"%u]);
   ("SouthVowelSignMap"%u, ["ĕ"%u; "ŏ"%u]);
   ("ModernVowelSignMap"%u, ["æ"%u; "ô"%u]);
   ("SinhalaVowelSignMap"%u, ["ǣ"%u]);
   ("AyogavahaMap"%u, ["m̐"%u; "ṁ"%u; "ḥ"%u]);
   ("ViramaMap"%u, ["×"%u]);
   ("ConsonantMap"%u, ["k"%u; "kh"%u; "g"%u; "gh"%u; "ṅ"%u; "c"%u; "ch"%u; "j"%u;
    "jh"%u; "ñ"%u; "ṭ"%u; "ṭh"%u; "ḍ"%u; "ḍh"%u; "ṇ"%u; "t"%u;
    "th"%u; "d"%u; "dh"%u; "n"%u; "p"%u; "ph"%u; "b"%u; "bh"%u;
    "m"%u; "y"%u; "r"%u; "l"%u; "v"%u; "ś"%u; "ṣ"%u; "s"%u;
    "h"%u]);
   ("SouthConsonantMap"%u, ["ḷ"%u; "ḻ"%u; "ṟ"%u; "ṉ"%u]);
   ("NuktaConsonantMap"%u, ["q"%u; "k͟h"%u; "ġ"%u; "z"%u; "ṛ"%u; "ṛh"%u; "f"%u; "ẏ"%u]);
   ("SinhalaConsonantMap"%u, ["n̆g"%u; "n̆j"%u; "n̆ḍ"%u; "n̆d"%u; "m̆b"%u]);
   ("NuktaMap"%u, [[0x308]%N]);
   ("OmMap"%u, ["oṁ"%u]);
   ("Aytham"%u, ["ḵ"%u]);
   ("SignMap"%u, ["’ʽ"%u; "."%u; ".."%u]);
   ("NumeralMap"%u, ["0"%u; "1"%u; "2"%u; "3"%u; "4"%u; "5"%u; "6"%u; "7"%u;
    "8"%u; "9"%u])].

(** aksharamukha/ScriptMap/Roman/Inter.py:6-44 *)
Definition S_Roman_Inter : table :=
  [("VowelMap"%u, [[0xE000]%N; [0xE001]%N; [0xE002]%N; [0xE003]%N; [0xE004]%N; [0xE005]%N; [0xE006]%N; [0xE007]%N;
    [0xE008]%N; [0xE009]%N; [0xE00A]%N; [0xE00B]%N; [0xE00C]%N; [0xE00D]%N]);
   ("SouthVowelMap"%u, [[0xE100]%N; [0xE101]%N]);
   ("ModernVowelMap"%u, [[0xE200]%N; [0xE201]%N]);
   ("SinhalaVowelMap"%u, [[0xE300]%N]);
   ("VowelSignMap"%u, [[0xE001]%N; [0xE002]%N; [0xE003]%N; [0xE004]%N; [0xE005]%N; [0xE006]%N; [0xE007]%N; [0xE008]%N;
    [0xE009]%N; [0xE00A]%N; [0xE00B]%N; [0xE00C]%N; [0xE00D]%N]);
   ("SouthVowelSignMap"%u, [[0xE100]%N; [0xE101]%N]);
   ("ModernVowelSignMap"%u, [[0xE200]%N; [0xE201]%N]);
   ("SinhalaVowelSignMap"%u, [[0xE300]%N]);
   ("AyogavahaMap"%u, [[0xE400]%N; [0xE401]%N; [0xE402]%N]);
   ("ViramaMap"%u, ["×"%u]);
   ("ConsonantMap"%u, [[0xE500]%N; [0xE501]%N; [0xE502]%N; [0xE503]%N; [0xE504]%N; [0xE505]%N; [0xE506]%N; [0xE507]%N;
    [0xE508]%N; [0xE509]%N; [0xE50A]%N; [0xE50B]%N; [0xE50C]%N; [0xE50D]%N; [0xE50E]%N; [0xE50F]%N;
    [0xE510]%N; [0xE511]%N; [0xE512]%N; [0xE513]%N; [0xE514]%N; [0xE515]%N; [0xE516]%N; [0xE517]%N;
    [0xE518]%N; [0xE519]%N; [0xE51A]%N; [0xE51B]%N; [0xE51C]%N; [0xE51D]%N; [0xE51E]%N; [0xE51F]%N;
    [0xE520]%N]);
   ("SouthConsonantMap"%u, [[0xE600]%N; [0xE601]%N; [0xE602]%N; [0xE603]%N]);
   ("NuktaConsonantMap"%u, [[0xE700]%N; [0xE701]%N; [0xE702]%N; [0xE703]%N; [0xE704]%N; [0xE705]%N; [0xE706]%N; [0xE707]%N]);
   ("NuktaMap"%u, [[0xE800]%N]);
   ("OmMap"%u, [[0xE900]%N]);
   ("SignMap"%u, [[0xEA00]%N; [0xEA01]%N; [0xEA02]%N]);
   ("SinhalaConsonantMap"%u, [[0xEB00]%N; [0xEB01]%N; [0xEB02]%N; [0xEB03]%N; [0xEB04]%N]);
   ("Aytham"%u, [[0xEC00]%N]);
   ("NumeralMap"%u, [[0xED00]%N; [0xED01]%N; [0xED02]%N; [0xED03]%N; [0xED04]%N; [0xED05]%N; [0xED06]%N; [0xED07]%N;
    [0xED08]%N; [0xED09]%N])].

(** aksharamukha/ScriptMap/Roman/Itrans.py:5-149 *)
Definition S_Roman_Itrans : table :=
  [("VowelMap"%u, ["a"%u; "A"%u; "i"%u; "I"%u; "u"%u; "U"%u; "R^i"%u; "R^I"%u;
    "L^i"%u; "L^I"%u; "e"%u; "ai"%u; "o"%u; "au"%u]);
   ("SouthVowelMap"%u, ["^e"%u; "^o"%u]);
   ("ModernVowelMap"%u, ["e.c"%u; "A.c"%u]);
   ("SinhalaVowelMap"%u, ["a.C"%u]);
   ("VowelSignMap"%u, ["A"%u; "i"%u; "I"%u; "u"%u; "U"%u; "R^i"%u; "R^I"%u; "L^i"%u;
    "L^I"%u; "e"%u; "ai"%u; "o"%u; "au"%u]);
   ("SouthVowelSignMap"%u, ["^e"%u; "^o"%u]);
   ("ModernVowelSignMap"%u, ["e.c"%u; "A.c"%u]);
   ("SinhalaVowelSignMap"%u, ["a.C"%u]);
   ("AyogavahaMap"%u, [".N"%u; "M"%u; "H"%u]);
   ("ViramaMap"%u, ["×"%u]);
   ("ConsonantMap"%u, ["k"%u; "kh"%u; "g"%u; "gh"%u; "~N"%u; "ch"%u; "Ch"%u; "j"%u;
    "jh"%u; "~n"%u; "T"%u; "Th"%u; "D"%u; "Dh"%u; "N"%u; "t"%u;
    "th"%u; "d"%u; "dh"%u; "n"%u; "p"%u; "ph"%u; "b"%u; "bh"%u;
    "m"%u; "y"%u; "r"%u; "l"%u; "v"%u; "sh"%u; "Sh"%u; "s"%u;
    "h"%u]);
   ("SouthConsonantMap"%u, ["L"%u; "zh"%u; "R"%u; "^n"%u]);
   ("NuktaConsonantMap"%u, ["q"%u; "K"%u; "G"%u; "z"%u; ".D"%u; ".Dh"%u; "f"%u; "Y"%u]);
   ("SinhalaConsonantMap"%u, ["n*g"%u; "n*j"%u; "n*D"%u; "n*d"%u; "m*b"%u]);
   ("NuktaMap"%u, ["Q"%u]);
   ("OmMap"%u, ["oM"%u]);
   ("SignMap"%u, [".a"%u; "."%u; ".."%u]);
   ("Aytham"%u, ["K^"%u]);
   ("NumeralMap"%u, ["0"%u; "1"%u; "2"%u; "3"%u; "4"%u; "5"%u; "6"%u; "7"%u;
    "8"%u; "9"%u])].

(** aksharamukha/ScriptMap/Roman/JavaneseRomanLoC.py:5-148 *)
Definition S_Roman_JavaneseRomanLoC : table :=
  [("VowelMap"%u, ["a"%u; "aʽ"%u; "i"%u; "iʽ"%u; "u"%u; "uʽ"%u; "rĕ"%u; "rĕʽ"%u;
    "lĕ"%u; "lĕʽ"%u; "e"%u; "eʽ"%u; "o"%u; "oʽ"%u]);
   ("SouthVowelMap"%u, ["eʽ"%u; "oʽ"%u]);
   ("ModernVowelMap"%u, ["ĕ"%u; "ô"%u]);
   ("SinhalaVowelMap"%u, ["ĕ"%u]);
   ("VowelSignMap"%u, ["aʽ"%u; "i"%u; "iʽ"%u; "u"%u; "uʽ"%u; "rĕ"%u; "rĕʽ"%u; "lĕ"%u;
    "lĕʽ"%u; "e"%u; "eʽ"%u; "o"%u; "oʽ"%u]);
   ("SouthVowelSignMap"%u, ["eʽ"%u; "oʽ"%u]);
   ("ModernVowelSignMap"%u, ["ĕ"%u; "ô"%u]);
   ("SinhalaVowelSignMap"%u, ["ĕ"%u]);
   ("AyogavahaMap"%u, ["ng"%u; "ng"%u; "h"%u]);
   ("ViramaMap"%u, ["×"%u]);
   ("ConsonantMap"%u, ["k"%u; "kh"%u; "g"%u; "gh"%u; "ng"%u; "c"%u; "ch"%u; "j"%u;
    "jh"%u; "ny"%u; "th"%u; "thh"%u; "dh"%u; "dhh"%u; "ṇ"%u; "t"%u;
    "th"%u; "d"%u; "dh"%u; "n"%u; "p"%u; "ph"%u; "b"%u; "bh"%u;
    "m"%u; "y"%u; "r"%u; "l"%u; "w"%u; "ś"%u; "ṣ"%u; "s"%u;
    "h"%u]);
   ("SouthConsonantMap"%u, ["ḷ"%u; "ḻ"%u; "ṟ"%u; "ṉ"%u]);
   ("NuktaConsonantMap"%u, ["khʽ"%u; "k͟h"%u; "ghʽ"%u; "z"%u; "ṛ"%u; "ṛh"%u; "f"%u; "ẏ"%u]);
   ("SinhalaConsonantMap"%u, ["n̆g"%u; "n̆j"%u; "n̆ḍ"%u; "n̆d"%u; "m̆b"%u]);
   ("NuktaMap"%u, [[0x308]%N]);
   ("OmMap"%u, ["ōṁ"%u]);
   ("Aytham"%u, ["ḵ"%u]);
   ("SignMap"%u, ["’"%u; "."%u; ".."%u]);
   ("NumeralMap"%u, ["0"%u; "1"%u; "2"%u; "3"%u; "4"%u; "5"%u; "6"%u; "7"%u;
    "8"%u; "9"%u])].

(** aksharamukha/ScriptMap/Roman/JavaneseSimpleRomanLoC.py:5-148 *)
Definition S_Roman_JavaneseSimpleRomanLoC : table :=
  [("VowelMap"%u, ["a"%u; "aʽ"%u; "i"%u; "iʽ"%u; "u"%u; "uʽ"%u; "rĕ"%u; "rĕʽ"%u;
    "lĕ"%u; "lĕʽ"%u; "e"%u; "eʽ"%u; "o"%u; "oʽ"%u]);
   ("SouthVowelMap"%u, ["eʽ"%u; "oʽ"%u]);
   ("ModernVowelMap"%u, ["ĕ"%u; "ô"%u]);
   ("SinhalaVowelMap"%u, ["ĕ"%u]);
   ("VowelSignMap"%u, ["aʽ"%u; "i"%u; "iʽ"%u; "u"%u; "uʽ"%u; "rĕ"%u; "rĕʽ"%u; "lĕ"%u;
    "lĕʽ"%u; "e"%u; "eʽ"%u; "o"%u; "oʽ"%u]);
   ("SouthVowelSignMap"%u, ["eʽ"%u; "oʽ"%u]);
   ("ModernVowelSignMap"%u, ["ĕ"%u; "ô"%u]);
   ("SinhalaVowelSignMap"%u, ["ĕ"%u]);
   ("AyogavahaMap"%u, ["ng"%u; "ng"%u; "h"%u]);
   ("ViramaMap"%u, ["×"%u]);
   ("ConsonantMap"%u, ["k"%u; "kʽ"%u; "g"%u; "gʽ"%u; "ng"%u; "c"%u; "cʽ"%u; "j"%u;
    "jʽ"%u; "ny"%u; "th"%u; "thʽ"%u; "dh"%u; "dhʽ"%u; "n"%u; "t"%u;
    "tʽ"%u; "d"%u; "dʽ"%u; "n"%u; "p"%u; "pʽ"%u; "b"%u; "bʽ"%u;
    "m"%u; "y"%u; "r"%u; "l"%u; "w"%u; "sʽ"%u; "sʽ"%u; "s"%u;
    "h"%u]);
   ("SouthConsonantMap"%u, ["ḷ"%u; "ḻ"%u; "ṟ"%u; "ṉ"%u]);
   ("NuktaConsonantMap"%u, ["khʽ"%u; "k͟h"%u; "ghʽ"%u; "z"%u; "ṛ"%u; "ṛh"%u; "f"%u; "ẏ"%u]);
   ("SinhalaConsonantMap"%u, ["n̆g"%u; "n̆j"%u; "n̆ḍ"%u; "n̆d"%u; "m̆b"%u]);
   ("NuktaMap"%u, [[0x308]%N]);
   ("OmMap"%u, ["ōṁ"%u]);
   ("Aytham"%u, ["ḵ"%u]);
   ("SignMap"%u, ["’"%u; "."%u; ".."%u]);
   ("NumeralMap"%u, ["0"%u; "1"%u; "2"%u; "3"%u; "4"%u; "5"%u; "6"%u; "7"%u;
    "8"%u; "9"%u])].

(** aksharamukha/ScriptMap/Roman/KannadaRomanLoC.py:5-148 *)
Definition S_Roman_KannadaRomanLoC : table :=
  [("VowelMap"%u, ["a"%u; "ā"%u; "i"%u; "ī"%u; "u"%u; "ū"%u; "r̥"%u; "r̥̄"%u;
    "l̥"%u; "l̥̄"%u; "ē"%u; "ai"%u; "ō"%u; "au"%u]);
   ("SouthVowelMap"%u, ["e"%u; "o"%u]);
   ("ModernVowelMap"%u, ["æ"%u; "ô"%u]);
   ("SinhalaVowelMap"%u, ["ǣ"%u]);
   ("VowelSignMap"%u, ["ā"%u; "i"%u; "ī"%u; "u"%u; "ū"%u; "r̥"%u; "r̥̄"%u; "l̥"%u;
    "l̥̄"%u; "ē"%u; "ai"%u; "ō"%u; "au"%u]);
   ("SouthVowelSignMap"%u, ["e"%u; "o"%u]);
   ("ModernVowelSignMap"%u, ["æ"%u; "ô"%u]);
   ("SinhalaVowelSignMap"%u, ["ǣ"%u]);
   ("AyogavahaMap"%u, ["m̐"%u; "ṃ"%u; "ḥ"%u]);
   ("ViramaMap"%u, ["×"%u]);
   ("ConsonantMap"%u, ["k"%u; "kh"%u; "g"%u; "gh"%u; "ṅ"%u; "c"%u; "ch"%u; "j"%u;
    "jh"%u; "ñ"%u; "ṭ"%u; "ṭh"%u; "ḍ"%u; "ḍh"%u; "ṇ"%u; "t"%u;
    "th"%u; "d"%u; "dh"%u; "n"%u; "p"%u; "ph"%u; "b"%u; "bh"%u;
    "m"%u; "y"%u; "r"%u; "l"%u; "v"%u; "ś"%u; "ṣ"%u; "s"%u;
    "h"%u]);
   ("SouthConsonantMap"%u, ["ḷ"%u; "l̤"%u; "ṟ"%u; "ṉ"%u]);
   ("NuktaConsonantMap"%u, ["q"%u; "k͟h"%u; "ġ"%u; "z"%u; "ṛ"%u; "ṛh"%u; "f"%u; "ẏ"%u]);
   ("SinhalaConsonantMap"%u, ["n̆g"%u; "n̆j"%u; "n̆ḍ"%u; "n̆d"%u; "m̆b"%u]);
   ("NuktaMap"%u, [[0x308]%N]);
   ("OmMap"%u, ["ōṁ"%u]);
   ("Aytham"%u, ["ḵ"%u]);
   ("SignMap"%u, ["’"%u; "."%u; ".."%u]);
   ("NumeralMap"%u, ["0"%u; "1"%u; "2"%u; "3"%u; "4"%u; "5"%u; "6"%u; "7"%u;
    "8"%u; "9"%u])].

(** aksharamukha/ScriptMap/Roman/KhmerLoCRomanLoC.py:5-149 *)
Definition S_Roman_KhmerLoCRomanLoC : table :=
  [("VowelMap"%u, ["a"%u; "ā"%u; "i"%u; "ī"%u; "u"%u; "ū"%u; "ṛ"%u; "ṝ"%u;
    "ḷʽ"%u; "ḹ"%u; "e"%u; "ai"%u; "o"%u; "au"%u]);
   ("SouthVowelMap"%u, ["ĕ"%u; "ŏ"%u]);
   ("ModernVowelMap"%u, ["ae"%u; "ô"%u]);
   ("SinhalaVowelMap"%u, ["ǣ"%u]);
   ("VowelSignMap"%u, ["ā"%u; "i"%u; "ī"%u; "u"%u; "ū"%u; "ṛ"%u; "ṝ"%u; "ḷʽ"%u;
    "ḹ"%u; "e"%u; "ai"%u; "o"%u; "au"%u]);
   ("SouthVowelSignMap"%u, ["ĕ"%u; "ŏ"%u]);
   ("ModernVowelSignMap"%u, ["ae"%u; "ô"%u]);
   ("SinhalaVowelSignMap"%u, ["ǣ"%u]);
   ("AyogavahaMap"%u, ["m̐"%u; "ṃ"%u; "ḥ"%u]);
   ("ViramaMap"%u, ["×"%u]);
   ("ConsonantMap"%u, ["k"%u; "kh"%u; "g"%u; "gh"%u; "ṅ"%u; "c"%u; "ch"%u; "j"%u;
    "jh"%u; "ñ"%u; "ṭ"%u; "ṭh"%u; "ḍ"%u; "ḍh"%u; "ṇ"%u; "t"%u;
    "th"%u; "d"%u; "dh"%u; "n"%u; "p"%u; "ph"%u; "b"%u; "bh"%u;
    "m"%u; "y"%u; "r"%u; "l"%u; "v"%u; "ś"%u; "ṣ"%u; "s"%u;
    "h"%u]);
   ("SouthConsonantMap"%u, ["ḷ"%u; "ḻ"%u; "ṟ"%u; "ṉ"%u]);
   ("NuktaConsonantMap"%u, ["q"%u; "k͟h"%u; "ġ"%u; "z"%u; "r̤"%u; "r̤h"%u; "f"%u; "ẏʽ"%u]);
   ("SinhalaConsonantMap"%u, ["n̆g"%u; "n̆j"%u; "n̆ḍ"%u; "n̆d"%u; "m̆b"%u]);
   ("NuktaMap"%u, [[0x308]%N]);
   ("OmMap"%u, ["oṃ"%u]);
   ("SignMap"%u, ["'"%u; "."%u; ".ʽ"%u]);
   ("Aytham"%u, ["ḵ"%u]);
   ("NumeralMap"%u, ["0"%u; "1"%u; "2"%u; "3"%u; "4"%u; "5"%u; "6"%u; "7"%u;
    "8"%u; "9"%u])].

(** aksharamukha/ScriptMap/Roman/LimbuLoCRomanLoC.py:5-149 *)
Definition S_Roman_LimbuLoCRomanLoC : table :=
  [("VowelMap"%u, ["a"%u; "ā"%u; "i"%u; "ī"%u; "u"%u; "ū"%u; "ṛ"%u; "ṝ"%u;
    "ḷ"%u; "ḹ"%u; "e"%u; "ai"%u; "o"%u; "au"%u]);
   ("SouthVowelMap"%u, ["ĕ"%u; "ŏ"%u]);
   ("ModernVowelMap"%u, ["æ"%u; "ô"%u]);
   ("SinhalaVowelMap"%u, ["ǣ"%u]);
   ("VowelSignMap"%u, ["ā"%u; "i"%u; "ī"%u; "u"%u; "ū"%u; "ṛ"%u; "ṝ"%u; "ḷ"%u;
    "ḹ"%u; "e"%u; "ai"%u; "o"%u; "au"%u]);
   ("SouthVowelSignMap"%u, ["ĕ"%u; "ŏ"%u]);
   ("ModernVowelSignMap"%u, ["æ"%u; "ô"%u]);
   ("SinhalaVowelSignMap"%u, ["ǣ"%u]);
   ("AyogavahaMap"%u, ["m̐"%u; "ṃ"%u; "ḥ"%u]);
   ("ViramaMap"%u, ["×"%u]);
   ("ConsonantMap"%u, ["k"%u; "kh"%u; "g"%u; "gh"%u; "ṅ"%u; "c"%u; "ch"%u; "j"%u;
    "jh"%u; "ñ"%u; "ṭ"%u; "ṭh"%u; "ḍ"%u; "ḍh"%u; "ṇ"%u; "t"%u;
    "th"%u; "d"%u; "dh"%u; "n"%u; "p"%u; "ph"%u; "b"%u; "bh"%u;
    "m"%u; "y"%u; "r"%u; "l"%u; "v"%u; "ś"%u; "ṣ"%u; "s"%u;
    "h"%u]);
   ("SouthConsonantMap"%u, ["l̤"%u; "ḻ"%u; "ṟ"%u; "ṉ"%u]);
   ("NuktaConsonantMap"%u, ["q"%u; "k͟h"%u; "ġ"%u; "z"%u; "r̤"%u; "r̤h"%u; "f"%u; "ẏ"%u]);
   ("SinhalaConsonantMap"%u, ["n̆g"%u; "n̆j"%u; "n̆ḍ"%u; "n̆d"%u; "m̆b"%u]);
   ("NuktaMap"%u, [[0x308]%N]);
   ("OmMap"%u, ["oṃ"%u]);
   ("SignMap"%u, ["’"%u; "."%u; ".."%u]);
   ("Aytham"%u, ["ḵ"%u]);
   ("NumeralMap"%u, ["0"%u; "1"%u; "2"%u; "3"%u; "4"%u; "5"%u; "6"%u; "7"%u;
    "8"%u; "9"%u])].

(** aksharamukha/ScriptMap/Roman/Mongolian.py:5-149 *)
Definition S_Roman_Mongolian : table :=
  [("VowelMap"%u, ["ᠠ᠋"%u; [0x1820; 0x180B; 0x180E; 0x1820]%N; "ᢈ"%u; "ᠢᠢ"%u; "ᠦ"%u; "ᠤᠦ"%u; "ᠷᠢ"%u; "ᠷᠢᠢ"%u;
    "ᠯᠢ"%u; "ᠯᠢᠢ"%u; "ᠧ"%u; "ᠧʼᠧ"%u; "ᠣᠸᠠ"%u; "ᠣᠸᠸᠠ"%u]);
   ("SouthVowelMap"%u, ["ᠧʽ"%u; "ᠣᠸᠠʽ"%u]);
   ("ModernVowelMap"%u, ["ᠣᠸᠠʽ"%u; "ᠠʽ"%u]);
   ("SinhalaVowelMap"%u, ["ᠣᠸᠠʽ"%u]);
   ("VowelSignMap"%u, [[0x1820; 0x180B; 0x180E; 0x1820]%N; "ᢈ"%u; "ᠢᠢ"%u; "ᠦ"%u; "ᠤᠦ"%u; "ᠷᠢ"%u; "ᠷᠢᠢ"%u; "ᠯᠢ"%u;
    "ᠯᠢᠢ"%u; "ᠧ"%u; "ᠧʼᠧ"%u; "ᠣᠸᠠ"%u; "ᠣᠸᠸᠠ"%u]);
   ("SouthVowelSignMap"%u, ["ᠧʽ"%u; "ᠣᠸᠠʽ"%u]);
   ("ModernVowelSignMap"%u, ["ᠣᠸᠠʽ"%u; "ᠠʽ"%u]);
   ("SinhalaVowelSignMap"%u, ["ᠣᠸᠠʽ"%u]);
   ("AyogavahaMap"%u, ["ᢀʽ"%u; "ᢀ"%u; "ᢁ"%u]);
   ("ViramaMap"%u, ["×"%u]);
   ("ConsonantMap"%u, ["ᢉ"%u; "ᠻ"%u; "ᠺ"%u; "ᠺᠾ"%u; "ᢊ"%u; "ᢋ"%u; "ᠼ"%u; "ᢖ"%u;
    "ᢖᠾ"%u; "ᡛ"%u; "ᢌ"%u; "ᢍ"%u; "ᢎ"%u; "ᢎᠾ"%u; "ᢏ"%u; "ᢐ"%u;
    "ᠲ"%u; "ᢑ"%u; "ᢑᠾ"%u; "ᠨ"%u; "ᢒ"%u; "ᠹ"%u; "ᠪ"%u; "ᠪᠾ"%u;
    "ᠮ"%u; "ᠶ"%u; "ᠷ"%u; "ᠯ"%u; "ᠸ"%u; "ᠱ"%u; "ᢔ"%u; "ᠰ"%u;
    "ᡙ"%u]);
   ("SouthConsonantMap"%u, ["ᠯʽ"%u; "ᠯʽ"%u; "ᠷʽ"%u; "ᠨʽ"%u]);
   ("NuktaConsonantMap"%u, ["ᢉʽ"%u; "ᠻʽ"%u; "ᠺʽ"%u; "ᢖ"%u; "ᢎʽ"%u; "ᢎᠾʽ"%u; "ᠹʽ"%u; "ᠶʽ"%u]);
   ("SinhalaConsonantMap"%u, ["ᢀᠺʽ"%u; "ᢀᢖʽ"%u; "ᢀᢎʽ"%u; "ᢀᢑʽ"%u; "ᢀᠪʽ"%u]);
   ("NuktaMap"%u, ["ʽʽ"%u]);
   ("OmMap"%u, ["ᢀᠣᠸᠠ"%u]);
   ("SignMap"%u, ["ʽʽʽ"%u; "᠂"%u; "᠂᠂"%u]);
   ("Aytham"%u, ["ᢁʽ"%u]);
   ("NumeralMap"%u, ["᠐"%u; "᠑"%u; "᠒"%u; "᠓"%u; "᠔"%u; "᠕"%u; "᠖"%u; "᠗"%u;
    "᠘"%u; "᠙"%u])].

(** aksharamukha/ScriptMap/Roman/Mro.py:5-149 *)
Definition S_Roman_Mro : table :=
  [("VowelMap"%u, ["𖩒"%u; "𖩆"%u; "𖩊"%u; "𖩊ʽ"%u; "𖩑ʽ"%u; "𖩑ʽ"%u; "𖩓𖩑ʽ"%u; "𖩓𖩑ʽ"%u;
    "𖩍𖩑ʽ"%u; "𖩍𖩑ʽ"%u; "𖩘"%u; "𖩆𖩂ʽ"%u; "𖩑"%u; "𖩖"%u]);
   ("SouthVowelMap"%u, ["𖩘ʽ"%u; "𖩑ʽ"%u]);
   ("ModernVowelMap"%u, ["𖩘ʽ"%u; "𖩝"%u]);
   ("SinhalaVowelMap"%u, ["𖩘ʽ"%u]);
   ("VowelSignMap"%u, ["𖩆"%u; "𖩊"%u; "𖩊ʽ"%u; "𖩑ʽ"%u; "𖩑ʽ"%u; "𖩓𖩑ʽ"%u; "𖩓𖩑ʽ"%u; "𖩍𖩑ʽ"%u;
    "𖩍𖩑ʽ"%u; "𖩘"%u; "𖩆𖩂ʽ"%u; "𖩑"%u; "𖩖"%u]);
   ("SouthVowelSignMap"%u, ["𖩘ʽ"%u; "𖩑ʽ"%u]);
   ("ModernVowelSignMap"%u, ["𖩘ʽ"%u; "𖩝"%u]);
   ("SinhalaVowelSignMap"%u, ["𖩘ʽ"%u]);
   ("AyogavahaMap"%u, ["𖩃ʽ"%u; "𖩃ʽ"%u; "𖩉ʽ"%u]);
   ("ViramaMap"%u, ["×"%u]);
   ("ConsonantMap"%u, ["𖩌"%u; "𖩈"%u; "𖩌ʽ"%u; "𖩈ʽ"%u; "𖩁"%u; "𖩋"%u; "𖩋ʽ"%u; "𖩋ʽ"%u;
    "𖩋ʽ"%u; "𖩏ʽ"%u; "𖩀ʽ"%u; "𖩕ʽ"%u; "𖩅ʽ"%u; "𖩅ʽ"%u; "𖩏ʽ"%u; "𖩀"%u;
    "𖩕"%u; "𖩅"%u; "𖩅ʽ"%u; "𖩏"%u; "𖩐"%u; "𖩇"%u; "𖩄"%u; "𖩄ʽ"%u;
    "𖩃"%u; "𖩂"%u; "𖩓"%u; "𖩍"%u; "𖩗"%u; "𖩔ʽ"%u; "𖩔ʽ"%u; "𖩔"%u;
    "𖩉"%u]);
   ("SouthConsonantMap"%u, ["𖩍ʽ"%u; "𖩍ʽ"%u; "𖩓ʽ"%u; "𖩏ʽ"%u]);
   ("NuktaConsonantMap"%u, ["𖩌ʽ"%u; "𖩈ʽ"%u; "𖩌ʽ"%u; "𖩋ʽ"%u; "𖩅ʽ"%u; "𖩅ʽ"%u; "𖩇ʽ"%u; "𖩂ʽ"%u]);
   ("SinhalaConsonantMap"%u, ["𖩁𖩌ʽ"%u; "𖩏𖩋ʽ"%u; "𖩏𖩅ʽ"%u; "𖩏𖩅ʽ"%u; "𖩃𖩄ʽ"%u]);
   ("NuktaMap"%u, ["ʽʽ"%u]);
   ("OmMap"%u, ["𖩑𖩃"%u]);
   ("SignMap"%u, ["ʽʽ"%u; "𖩮"%u; "𖩯"%u]);
   ("Aytham"%u, ["𖩌ʽ"%u]);
   ("NumeralMap"%u, ["𖩠"%u; "𖩡"%u; "𖩢"%u; "𖩣"%u; "𖩤"%u; "𖩥"%u; "𖩦"%u; "𖩧"%u;
    "𖩨"%u; "𖩩"%u])].

(** aksharamukha/ScriptMap/Roman/OriyaRomanLoC.py:5-148 *)
Definition S_Roman_OriyaRomanLoC : table :=
  [("VowelMap"%u, ["a"%u; "ā"%u; "i"%u; "ī"%u; "u"%u; "ū"%u; "r̥"%u; "r̥̄"%u;
    "l̥"%u; "l̥̄"%u; "e"%u; "ai"%u; "o"%u; "au"%u]);
   ("SouthVowelMap"%u, ["ĕ"%u; "ŏ"%u]);
   ("ModernVowelMap"%u, ["æ"%u; "ô"%u]);
   ("SinhalaVowelMap"%u, ["ǣ"%u]);
   ("VowelSignMap"%u, ["ā"%u; "i"%u; "ī"%u; "u"%u; "ū"%u; "r̥"%u; "r̥̄"%u; "l̥"%u;
    "l̥̄"%u; "e"%u; "ai"%u; "o"%u; "au"%u]);
   ("SouthVowelSignMap"%u, ["ĕ"%u; "ŏ"%u]);
   ("ModernVowelSignMap"%u, ["æ"%u; "ô"%u]);
   ("SinhalaVowelSignMap"%u, ["ǣ"%u]);
   ("AyogavahaMap"%u, ["m̐"%u; "ṃ"%u; "ḥ"%u]);
   ("ViramaMap"%u, ["×"%u]);
   ("ConsonantMap"%u, ["k"%u; "kh"%u; "g"%u; "gh"%u; "ṅ"%u; "c"%u; "ch"%u; "j"%u;
    "jh"%u; "ñ"%u; "ṭ"%u; "ṭh"%u; "ḍ"%u; "ḍh"%u; "ṇ"%u; "t"%u;
    "th"%u; "d"%u; "dh"%u; "n"%u; "p"%u; "ph"%u; "b"%u; "bh"%u;
    "m"%u; "y"%u; "r"%u; "l"%u; "w"%u; "ś"%u; "sh"%u; "s"%u;
    "h"%u]);
   ("SouthConsonantMap"%u, ["ḷ"%u; "ḻ"%u; "ṟ"%u; "ṉ"%u]);
   ("NuktaConsonantMap"%u, ["q"%u; "k͟h"%u; "ġ"%u; "z"%u; "ṛ"%u; "ṛh"%u; "f"%u; "ẏ"%u]);
   ("SinhalaConsonantMap"%u, ["n̆g"%u; "n̆j"%u; "n̆ḍ"%u; "n̆d"%u; "m̆b"%u]);
   ("NuktaMap"%u, [[0x308]%N]);
   ("OmMap"%u, ["oṃ"%u]);
   ("Aytham"%u, ["ḵ"%u]);
   ("SignMap"%u, ["’"%u; "."%u; ".."%u]);
   ("NumeralMap"%u, ["0"%u; "1"%u; "2"%u; "3"%u; "4"%u; "5"%u; "6"%u; "7"%u;
    "8"%u; "9"%u])].

(** aksharamukha/ScriptMap/Roman/RomanColloquial.py:5-149 *)
Definition S_Roman_RomanColloquial : table :=
  [("VowelMap"%u, ["a"%u; "a"%u; "i"%u; "i"%u; "u"%u; "u"%u; "ri"%u; "ri"%u;
    "li"%u; "li"%u; "e"%u; "ai"%u; "o"%u; "au"%u]);
   ("SouthVowelMap"%u, ["e"%u; "o"%u]);
   ("ModernVowelMap"%u, ["a"%u; "o"%u]);
   ("SinhalaVowelMap"%u, ["e"%u]);
   ("VowelSignMap"%u, ["a"%u; "i"%u; "i"%u; "u"%u; "u"%u; "ri"%u; "ri"%u; "li"%u;
    "li"%u; "e"%u; "ai"%u; "o"%u; "au"%u]);
   ("SouthVowelSignMap"%u, ["e"%u; "o"%u]);
   ("ModernVowelSignMap"%u, ["a"%u; "o"%u]);
   ("SinhalaVowelSignMap"%u, ["e"%u]);
   ("AyogavahaMap"%u, ["M"%u; "M"%u; "h"%u]);
   ("ViramaMap"%u, ["×"%u]);
   ("ConsonantMap"%u, ["k"%u; "kh"%u; "g"%u; "gh"%u; "ng"%u; "ch"%u; "chh"%u; "j"%u;
    "jh"%u; "nj"%u; "t'"%u; "th"%u; "d'"%u; "dh"%u; "n"%u; "t"%u;
    "th"%u; "d"%u; "dh"%u; "n"%u; "p"%u; "ph"%u; "b"%u; "bh"%u;
    "m"%u; "y"%u; "r"%u; "l"%u; "v"%u; "sh"%u; "sh"%u; "s"%u;
    "h"%u]);
   ("SouthConsonantMap"%u, ["l"%u; "zh"%u; "r"%u; "n"%u]);
   ("NuktaConsonantMap"%u, ["q"%u; "kh"%u; "g"%u; "z"%u; "r'"%u; "r'h"%u; "f"%u; "y"%u]);
   ("SinhalaConsonantMap"%u, ["ng"%u; "nj"%u; "nd"%u; "nd"%u; "mb"%u]);
   ("NuktaMap"%u, ["ʽʽ"%u]);
   ("OmMap"%u, ["Om"%u]);
   ("SignMap"%u, ["'"%u; "."%u; ".."%u]);
   ("Aytham"%u, ["g"%u]);
   ("NumeralMap"%u, ["0"%u; "1"%u; "2"%u; "3"%u; "4"%u; "5"%u; "6"%u; "7"%u;
    "8"%u; "9"%u])].

(** aksharamukha/ScriptMap/Roman/RomanKana.py:5-149 *)
Definition S_Roman_RomanKana : table :=
  [("VowelMap"%u, ["a"%u; "aa"%u; "i"%u; "ii"%u; "u"%u; "uu"%u; "ri"%u; "rii"%u;
    "r゚i"%u; "r゚ii"%u; "ee"%u; "ai"%u; "oo"%u; "au"%u]);
   ("SouthVowelMap"%u, ["e"%u; "o"%u]);
   ("ModernVowelMap"%u, ["a"%u; "o"%u]);
   ("SinhalaVowelMap"%u, ["e"%u]);
   ("VowelSignMap"%u, ["aa"%u; "i"%u; "ii"%u; "u"%u; "uu"%u; "ri"%u; "rii"%u; "r゚i"%u;
    "r゚ii"%u; "ee"%u; "ai"%u; "oo"%u; "au"%u]);
   ("SouthVowelSignMap"%u, ["e"%u; "o"%u]);
   ("ModernVowelSignMap"%u, ["a"%u; "o"%u]);
   ("SinhalaVowelSignMap"%u, ["e"%u]);
   ("AyogavahaMap"%u, ["n"%u; "n"%u; "H"%u]);
   ("ViramaMap"%u, ["×"%u]);
   ("ConsonantMap"%u, ["k"%u; "k"%u; "g"%u; "g"%u; "k゚"%u; "c"%u; "c"%u; "j"%u;
    "j"%u; "J"%u; "t"%u; "t"%u; "d"%u; "d"%u; "n"%u; "t"%u;
    "t"%u; "d"%u; "d"%u; "n"%u; "p"%u; "p"%u; "b"%u; "b"%u;
    "m"%u; "y"%u; "r"%u; "r゚"%u; "v"%u; "sh"%u; "sh"%u; "s"%u;
    "h"%u]);
   ("SouthConsonantMap"%u, ["r゚"%u; "r゚"%u; "r"%u; "n"%u]);
   ("NuktaConsonantMap"%u, ["k"%u; "k"%u; "g"%u; "z"%u; "r"%u; "r"%u; "f"%u; "y"%u]);
   ("SinhalaConsonantMap"%u, ["ng"%u; "nj"%u; "nd"%u; "nd"%u; "nb"%u]);
   ("NuktaMap"%u, ["ʽʽ"%u]);
   ("OmMap"%u, ["oon"%u]);
   ("SignMap"%u, ["'"%u; "。"%u; "。。"%u]);
   ("Aytham"%u, ["gu"%u]);
   ("NumeralMap"%u, ["0"%u; "1"%u; "2"%u; "3"%u; "4"%u; "5"%u; "6"%u; "7"%u;
    "8"%u; "9"%u])].

(** aksharamukha/ScriptMap/Roman/RomanReadable.py:5-149 *)
Definition S_Roman_RomanReadable : table :=
  [("VowelMap"%u, ["a"%u; "aa"%u; "i"%u; "ee"%u; "u"%u; "oo"%u; "ri'"%u; "ree'"%u;
    "li'"%u; "lee'"%u; "e"%u; "ai"%u; "o"%u; "au"%u]);
   ("SouthVowelMap"%u, ["e'"%u; "o'"%u]);
   ("ModernVowelMap"%u, ["a"%u; "o"%u]);
   ("SinhalaVowelMap"%u, ["e"%u]);
   ("VowelSignMap"%u, ["aa"%u; "i"%u; "ee"%u; "u"%u; "oo"%u; "ri'"%u; "ree'"%u; "li'"%u;
    "lee'"%u; "e"%u; "ai"%u; "o"%u; "au"%u]);
   ("SouthVowelSignMap"%u, ["e'"%u; "o'"%u]);
   ("ModernVowelSignMap"%u, ["a"%u; "o"%u]);
   ("SinhalaVowelSignMap"%u, ["e"%u]);
   ("AyogavahaMap"%u, ["M"%u; "M"%u; "h'"%u]);
   ("ViramaMap"%u, ["×"%u]);
   ("ConsonantMap"%u, ["k"%u; "kh"%u; "g"%u; "gh"%u; "ng"%u; "ch"%u; "chh"%u; "j"%u;
    "jh"%u; "nj"%u; "t'"%u; "t'h"%u; "d'"%u; "d'h"%u; "n"%u; "t"%u;
    "th"%u; "d"%u; "dh"%u; "n"%u; "p"%u; "ph"%u; "b"%u; "bh"%u;
    "m"%u; "y"%u; "r"%u; "l"%u; "v"%u; "sh"%u; "sh"%u; "s"%u;
    "h"%u]);
   ("SouthConsonantMap"%u, ["l'"%u; "zh"%u; "r'"%u; "n"%u]);
   ("NuktaConsonantMap"%u, ["q"%u; "kh"%u; "g"%u; "z"%u; "r"%u; "rh"%u; "f"%u; "y"%u]);
   ("SinhalaConsonantMap"%u, ["ng"%u; "nj"%u; "nd'"%u; "nd"%u; "mb"%u]);
   ("NuktaMap"%u, ["ʽʽ"%u]);
   ("OmMap"%u, ["om"%u]);
   ("SignMap"%u, ["'"%u; "."%u; ".."%u]);
   ("Aytham"%u, ["g"%u]);
   ("NumeralMap"%u, ["0"%u; "1"%u; "2"%u; "3"%u; "4"%u; "5"%u; "6"%u; "7"%u;
    "8"%u; "9"%u])].

(** aksharamukha/ScriptMap/Roman/RomanSemitic.py:5-165 *)
Definition S_Roman_RomanSemitic : table :=
  [("VowelMap"%u, ["â"%u; "ā̂"%u; "î"%u; "ī̂"%u; "û"%u; "ū̂"%u; "ruʽ"%u; "rūʽ"%u;
    "luʽ"%u; "lūʽ"%u; "ē̂"%u; "âŷ"%u; "ō̂"%u; "âŵ"%u]);
   ("SouthVowelMap"%u, ["ê"%u; "ô"%u]);
   ("ModernVowelMap"%u, ["ē̂ʽ"%u; "ā̂ʽ"%u]);
   ("SinhalaVowelMap"%u, ["êʽ"%u]);
   ("VowelSignMap"%u, ["ā"%u; "i"%u; "ī"%u; "u"%u; "ū"%u; [0x33D; 0x72; 0x75; 0x2BD]%N; [0x33D; 0x72; 0x16B; 0x2BD]%N; [0x33D; 0x72; 0x75; 0x2BD]%N;
    [0x33D; 0x72; 0x16B; 0x2BD]%N; "ē"%u; "aŷ"%u; "ō"%u; "aŵ"%u]);
   ("SouthVowelSignMap"%u, ["e"%u; "o"%u]);
   ("ModernVowelSignMap"%u, ["eʽ"%u; "āʽ"%u]);
   ("SinhalaVowelSignMap"%u, ["ēʽ"%u]);
   ("AyogavahaMap"%u, ["ₘ"%u; "ₘ"%u; "h̽ʽ"%u]);
   ("ViramaMap"%u, [[0x33D]%N]);
   ("ConsonantMap"%u, ["k"%u; "kʰ"%u; "g"%u; "gʰ"%u; "nʽ"%u; "č"%u; "čʰ"%u; "j"%u;
    "jʰ"%u; "ɲ"%u; "ʈ"%u; "ʈʰ"%u; "ɖ"%u; "ɖʰ"%u; "ɳ"%u; "t"%u;
    "tʰ"%u; "d"%u; "dʰ"%u; "n"%u; "p"%u; "pʰ"%u; "b"%u; "bʰ"%u;
    "m"%u; "y"%u; "r"%u; "l"%u; "v"%u; "š"%u; "ʂ"%u; "s"%u;
    "h"%u]);
   ("SouthConsonantMap"%u, ["ɭ"%u; "ɭʽ"%u; "rʽ"%u; "nʽ"%u]);
   ("NuktaConsonantMap"%u, ["q"%u; "ḫ"%u; "ġ"%u; "z"%u; "ɽ"%u; "ɽʰ"%u; "f"%u; "yʽ"%u]);
   ("SinhalaConsonantMap"%u, ["n̽gʽ"%u; "n̽jʽ"%u; "n̽dʽ"%u; "n̽dʽ"%u; "m̽bʽ"%u]);
   ("NuktaMap"%u, ["Q"%u]);
   ("OmMap"%u, ["ō̂m̽ʽ"%u]);
   ("SignMap"%u, ["ʽʽʽʽ"%u; "."%u; ".."%u]);
   ("Aytham"%u, ["h̽ʽ"%u]);
   ("NumeralMap"%u, ["0"%u; "1"%u; "2"%u; "3"%u; "4"%u; "5"%u; "6"%u; "7"%u;
    "8"%u; "9"%u])].

(** aksharamukha/ScriptMap/Roman/RussianCyrillic.py:5-149 *)
Definition S_Roman_RussianCyrillic : table :=
  [("VowelMap"%u, ["а"%u; "а̄"%u; "и"%u; "ӣ"%u; "у"%u; "ӯ"%u; "р̣"%u; "р̣̄"%u;
    "л̣"%u; "л̣̄"%u; "э"%u; "аи"%u; "о"%u; "ау"%u]);
   ("SouthVowelMap"%u, ["э̆"%u; "о̆"%u]);
   ("ModernVowelMap"%u, ["ӕ"%u; "о̂"%u]);
   ("SinhalaVowelMap"%u, ["ӕ̄"%u]);
   ("VowelSignMap"%u, ["а̄"%u; "и"%u; "ӣ"%u; "у"%u; "ӯ"%u; "р̣"%u; "р̣̄"%u; "л̣"%u;
    "л̣̄"%u; "э"%u; "аи"%u; "о"%u; "ау"%u]);
   ("SouthVowelSignMap"%u, ["э̆"%u; "о̆"%u]);
   ("ModernVowelSignMap"%u, ["ӕ"%u; "о̂"%u]);
   ("SinhalaVowelSignMap"%u, ["ӕ̄"%u]);
   ("AyogavahaMap"%u, ["м̐"%u; "м̣"%u; "х̣"%u]);
   ("ViramaMap"%u, ["×"%u]);
   ("ConsonantMap"%u, ["к"%u; "кх"%u; "г"%u; "гх"%u; "н̇"%u; "ч"%u; "чх"%u; "дж"%u;
    "джх"%u; "н̃"%u; "т̣"%u; "т̣х"%u; "д̣"%u; "д̣х"%u; "н̣"%u; "т"%u;
    "тх"%u; "д"%u; "дх"%u; "н"%u; "п"%u; "пх"%u; "б"%u; "бх"%u;
    "м"%u; "й"%u; "р"%u; "л"%u; "в"%u; "ш́"%u; "ш"%u; "с"%u;
    "х"%u]);
   ("SouthConsonantMap"%u, ["л̤"%u; "л̱"%u; "р̱"%u; "н̱"%u]);
   ("NuktaConsonantMap"%u, ["ԛ"%u; "к͟х"%u; "г̇"%u; "з"%u; "р̤"%u; "р̤х"%u; "ф"%u; "й̣"%u]);
   ("SinhalaConsonantMap"%u, ["н̆г"%u; "н̆дж"%u; "н̆д̣"%u; "н̆д"%u; "м̆б"%u]);
   ("NuktaMap"%u, [[0x308]%N]);
   ("OmMap"%u, ["ом̣"%u]);
   ("SignMap"%u, ["'"%u; "."%u; ".."%u]);
   ("Aytham"%u, ["к̱"%u]);
   ("NumeralMap"%u, ["0"%u; "1"%u; "2"%u; "3"%u; "4"%u; "5"%u; "6"%u; "7"%u;
    "8"%u; "9"%u])].

(** aksharamukha/ScriptMap/Roman/SLP1.py:5-149 *)
Definition S_Roman_SLP1 : table :=
  [("VowelMap"%u, ["a"%u; "A"%u; "i"%u; "I"%u; "u"%u; "U"%u; "f"%u; "F"%u;
    "x"%u; "X"%u; "e"%u; "E"%u; "o"%u; "O"%u]);
   ("SouthVowelMap"%u, ["e1"%u; "o1"%u]);
   ("ModernVowelMap"%u, ["e2"%u; "o2"%u]);
   ("SinhalaVowelMap"%u, ["e4"%u]);
   ("VowelSignMap"%u, ["A"%u; "i"%u; "I"%u; "u"%u; "U"%u; "f"%u; "F"%u; "x"%u;
    "X"%u; "e"%u; "E"%u; "o"%u; "O"%u]);
   ("SouthVowelSignMap"%u, ["e1"%u; "o1"%u]);
   ("ModernVowelSignMap"%u, ["e2"%u; "o2"%u]);
   ("SinhalaVowelSignMap"%u, ["e4"%u]);
   ("AyogavahaMap"%u, ["~"%u; "M"%u; "H"%u]);
   ("ViramaMap"%u, ["×"%u]);
   ("ConsonantMap"%u, ["k"%u; "K"%u; "g"%u; "G"%u; "N"%u; "c"%u; "C"%u; "j"%u;
    "J"%u; "Y"%u; "w"%u; "W"%u; "q"%u; "Q"%u; "R"%u; "t"%u;
    "T"%u; "d"%u; "D"%u; "n"%u; "p"%u; "P"%u; "b"%u; "B"%u;
    "m"%u; "y"%u; "r"%u; "l"%u; "v"%u; "S"%u; "z"%u; "s"%u;
    "h"%u]);
   ("SouthConsonantMap"%u, ["L"%u; "L0"%u; "r2"%u; "n2"%u]);
   ("NuktaConsonantMap"%u, ["k0"%u; "K0"%u; "g0"%u; "j0"%u; "q0"%u; "Q0"%u; "P0"%u; "Y0"%u]);
   ("SinhalaConsonantMap"%u, ["n*g"%u; "n*j"%u; "n*q"%u; "n*d"%u; "m*b"%u]);
   ("NuktaMap"%u, ["Q"%u]);
   ("OmMap"%u, ["oM"%u]);
   ("SignMap"%u, ["'"%u; "."%u; ".."%u]);
   ("Aytham"%u, ["K"%u]);
   ("NumeralMap"%u, ["0"%u; "1"%u; "2"%u; "3"%u; "4"%u; "5"%u; "6"%u; "7"%u;
    "8"%u; "9"%u])].

(** aksharamukha/ScriptMap/Roman/Santali.py:5-149 *)
Definition S_Roman_Santali : table :=
  [("VowelMap"%u, ["ᱚ"%u; "ᱟ"%u; "ᱤ"%u; "ᱤᱻ"%u; "ᱩ"%u; "ᱩᱻ"%u; "ᱨᱩʽ"%u; "ᱨᱩᱻʽ"%u;
    "ᱞᱩʽ"%u; "ᱞᱩᱻʽ"%u; "ᱮ"%u; "ᱚᱤ"%u; "ᱳ"%u; "ᱚᱩ"%u]);
   ("SouthVowelMap"%u, ["ᱮᱹ"%u; "ᱳʽ"%u]);
   ("ModernVowelMap"%u, ["ᱚᱹ"%u; "ᱟᱹ"%u]);
   ("SinhalaVowelMap"%u, ["ᱚᱹʽ"%u]);
   ("VowelSignMap"%u, ["ᱟ"%u; "ᱤ"%u; "ᱤᱻ"%u; "ᱩ"%u; "ᱩᱻ"%u; "ᱨᱩʽ"%u; "ᱨᱩᱻʽ"%u; "ᱞᱩʽ"%u;
    "ᱞᱩᱻʽ"%u; "ᱮ"%u; "ᱚᱤ"%u; "ᱳ"%u; "ᱚᱩ"%u]);
   ("SouthVowelSignMap"%u, ["ᱮᱹ"%u; "ᱳʽ"%u]);
   ("ModernVowelSignMap"%u, ["ᱚᱹ"%u; "ᱟᱹ"%u]);
   ("SinhalaVowelSignMap"%u, ["ᱚᱹʽ"%u]);
   ("AyogavahaMap"%u, ["ᱸ"%u; "ᱝ"%u; "ᱷ"%u]);
   ("ViramaMap"%u, ["×"%u]);
   ("ConsonantMap"%u, ["ᱠ"%u; "ᱠᱷ"%u; "ᱜ"%u; "ᱜᱷ"%u; "ᱶ"%u; "ᱪ"%u; "ᱪᱷ"%u; "ᱡ"%u;
    "ᱡᱷ"%u; "ᱧ"%u; "ᱴ"%u; "ᱴᱷ"%u; "ᱰ"%u; "ᱰᱷ"%u; "ᱬ"%u; "ᱛ"%u;
    "ᱛᱷ"%u; "ᱫ"%u; "ᱫᱷ"%u; "ᱱ"%u; "ᱯ"%u; "ᱯᱷ"%u; "ᱵ"%u; "ᱵᱷ"%u;
    "ᱢ"%u; "ᱭ"%u; "ᱨ"%u; "ᱞ"%u; "ᱣ"%u; "ᱥʽ"%u; "ᱥʽ"%u; "ᱥ"%u;
    "ᱦ"%u]);
   ("SouthConsonantMap"%u, ["ᱞʽ"%u; "ᱞʽ"%u; "ᱨʽ"%u; "ᱱʽ"%u]);
   ("NuktaConsonantMap"%u, ["ᱠʽ"%u; "ᱠᱷʽ"%u; "ᱜʽ"%u; "ᱡʽ"%u; "ᱲ"%u; "ᱲᱷ"%u; "ᱯʽ"%u; "ᱭʽ"%u]);
   ("SinhalaConsonantMap"%u, ["ᱸᱜʽ"%u; "ᱸᱡʽ"%u; "ᱸᱰʽ"%u; "ᱸᱫʽ"%u; "ᱸᱵʽ"%u]);
   ("NuktaMap"%u, ["ʽʽʽʽ"%u]);
   ("OmMap"%u, ["ᱳᱸ"%u]);
   ("SignMap"%u, ["'"%u; "᱾"%u; "᱿"%u]);
   ("Aytham"%u, ["ᱷʽ"%u]);
   ("NumeralMap"%u, ["᱐"%u; "᱑"%u; "᱒"%u; "᱓"%u; "᱔"%u; "᱕"%u; "᱖"%u; "᱗"%u;
    "᱘"%u; "᱙"%u])].

(** aksharamukha/ScriptMap/Roman/ShanLoCRomanLoC.py:5-149 *)
Definition S_Roman_ShanLoCRomanLoC : table :=
  [("VowelMap"%u, ["a"%u; "ā"%u; "i"%u; "ī"%u; "u"%u; "ū"%u; "ṛ"%u; "ṝ"%u;
    "ḷ"%u; "ḹ"%u; "e"%u; "ai"%u; "o"%u; "au"%u]);
   ("SouthVowelMap"%u, ["ĕ"%u; "ŏ"%u]);
   ("ModernVowelMap"%u, ["è"%u; "ô"%u]);
   ("SinhalaVowelMap"%u, ["ǣ"%u]);
   ("VowelSignMap"%u, ["ā"%u; "i"%u; "ī"%u; "u"%u; "ū"%u; "ṛ"%u; "ṝ"%u; "ḷ"%u;
    "ḹ"%u; "e"%u; "ai"%u; "o"%u; "au"%u]);
   ("SouthVowelSignMap"%u, ["ĕ"%u; "ŏ"%u]);
   ("ModernVowelSignMap"%u, ["è"%u; "ô"%u]);
   ("SinhalaVowelSignMap"%u, ["ǣ"%u]);
   ("AyogavahaMap"%u, ["m̐ʽ"%u; "ṃ"%u; "ʺ"%u]);
   ("ViramaMap"%u, ["×"%u]);
   ("ConsonantMap"%u, ["k"%u; "kh"%u; "g"%u; "gh"%u; "ṅ"%u; "c"%u; "ch"%u; "z"%u;
    "jh"%u; "ñ"%u; "ṭ"%u; "ṭh"%u; "ḍ"%u; "ḍh"%u; "ṇ"%u; "t"%u;
    "th"%u; "d"%u; "dh"%u; "n"%u; "p"%u; "ph"%u; "b"%u; "bh"%u;
    "m"%u; "y"%u; "r"%u; "l"%u; "v"%u; "ś"%u; "ṣ"%u; "s"%u;
    "h"%u]);
   ("SouthConsonantMap"%u, ["ḷ"%u; "ḻ"%u; "ṟ"%u; "ṉ"%u]);
   ("NuktaConsonantMap"%u, ["q"%u; "k͟h"%u; "ġ"%u; "z"%u; "r̤"%u; "r̤h"%u; "f"%u; "ẏ"%u]);
   ("SinhalaConsonantMap"%u, ["n̆g"%u; "n̆j"%u; "n̆ḍ"%u; "n̆d"%u; "m̆b"%u]);
   ("NuktaMap"%u, [[0x308]%N]);
   ("OmMap"%u, ["oṃ"%u]);
   ("SignMap"%u, ["'"%u; ","%u; "."%u]);
   ("Aytham"%u, ["ḵ"%u]);
   ("NumeralMap"%u, ["0"%u; "1"%u; "2"%u; "3"%u; "4"%u; "5"%u; "6"%u; "7"%u;
    "8"%u; "9"%u])].

(** aksharamukha/ScriptMap/Roman/SinhalaRomanLoC.py:5-148 *)
Definition S_Roman_SinhalaRomanLoC : table :=
  [("VowelMap"%u, ["a"%u; "ā"%u; "i"%u; "ī"%u; "u"%u; "ū"%u; "r̥"%u; "r̥̄"%u;
    "l̥"%u; "l̥̄"%u; "ē"%u; "ai"%u; "ō"%u; "au"%u]);
   ("SouthVowelMap"%u, ["e"%u; "o"%u]);
   ("ModernVowelMap"%u, ["ă"%u; "ô"%u]);
   ("SinhalaVowelMap"%u, ["â"%u]);
   ("VowelSignMap"%u, ["ā"%u; "i"%u; "ī"%u; "u"%u; "ū"%u; "r̥"%u; "r̥̄"%u; "l̥"%u;
    "l̥̄"%u; "ē"%u; "ai"%u; "ō"%u; "au"%u]);
   ("SouthVowelSignMap"%u, ["e"%u; "o"%u]);
   ("ModernVowelSignMap"%u, ["ă"%u; "ô"%u]);
   ("SinhalaVowelSignMap"%u, ["â"%u]);
   ("AyogavahaMap"%u, ["m̐"%u; "ṃ"%u; "ḥ"%u]);
   ("ViramaMap"%u, ["×"%u]);
   ("ConsonantMap"%u, ["k"%u; "kh"%u; "g"%u; "gh"%u; "ṅ"%u; "c"%u; "ch"%u; "j"%u;
    "jh"%u; "ñ"%u; "ṭ"%u; "ṭh"%u; "ḍ"%u; "ḍh"%u; "ṇ"%u; "t"%u;
    "th"%u; "d"%u; "dh"%u; "n"%u; "p"%u; "ph"%u; "b"%u; "bh"%u;
    "m"%u; "y"%u; "r"%u; "l"%u; "v"%u; "ś"%u; "ṣ"%u; "s"%u;
    "h"%u]);
   ("SouthConsonantMap"%u, ["ḷ"%u; "ḻ"%u; "ṟ"%u; "ṉ"%u]);
   ("NuktaConsonantMap"%u, ["q"%u; "k͟h"%u; "ġ"%u; "z"%u; "ṛ"%u; "ṛh"%u; "f"%u; "ẏ"%u]);
   ("SinhalaConsonantMap"%u, ["n̆g"%u; "n̆j"%u; "n̆ḍ"%u; "n̆d"%u; "m̆b"%u]);
   ("NuktaMap"%u, [[0x308]%N]);
   ("OmMap"%u, ["ōṃ"%u]);
   ("Aytham"%u, ["ḵ"%u]);
   ("SignMap"%u, ["’"%u; "."%u; ".."%u]);
   ("NumeralMap"%u, ["0"%u; "1"%u; "2"%u; "3"%u; "4"%u; "5"%u; "6"%u; "7"%u;
    "8"%u; "9"%u])].

(** aksharamukha/ScriptMap/Roman/SoraSompeng.py:5-152 *)
Definition S_Roman_SoraSompeng : table :=
  [("VowelMap"%u, ["ə"%u; "𑃢"%u; "𑃤"%u; "𑃤ʽ"%u; "𑃥"%u; "𑃥ʽ"%u; "𑃝𑃤ʽ"%u; "𑃝𑃤ʽ"%u;
    "𑃘𑃤ʽ"%u; "𑃘𑃤ʽ"%u; "𑃣"%u; "𑃧"%u; "𑃦"%u; "𑃦𑃥"%u]);
   ("SouthVowelMap"%u, ["𑃣ʽ"%u; "𑃦ʽ"%u]);
   ("ModernVowelMap"%u, ["𑃣ʽ"%u; "𑃢ʽ"%u]);
   ("SinhalaVowelMap"%u, ["𑃣ʽ"%u]);
   ("VowelSignMap"%u, ["𑃢"%u; "𑃤"%u; "𑃤ʽ"%u; "𑃥"%u; "𑃥ʽ"%u; "𑃝𑃤ʽ"%u; "𑃝𑃤ʽ"%u; "𑃘𑃤ʽ"%u;
    "𑃘𑃤ʽ"%u; "𑃣"%u; "𑃧"%u; "𑃦"%u; "𑃦𑃥"%u]);
   ("SouthVowelSignMap"%u, ["𑃣ʽ"%u; "𑃦ʽ"%u]);
   ("ModernVowelSignMap"%u, ["𑃣ʽ"%u; "𑃢ʽ"%u]);
   ("SinhalaVowelSignMap"%u, ["𑃣ʽ"%u]);
   ("AyogavahaMap"%u, ["𑃖ʽ"%u; "𑃖ʽ"%u; "𑃞ʽ"%u]);
   ("ViramaMap"%u, ["×"%u]);
   ("ConsonantMap"%u, ["𑃟"%u; "𑃟𑃠"%u; "𑃕"%u; "𑃕𑃠"%u; "𑃗"%u; "𑃓"%u; "𑃓𑃠"%u; "𑃠"%u;
    "𑃠𑃠"%u; "𑃡"%u; "𑃑𑃨"%u; "𑃑𑃨𑃠"%u; "𑃔"%u; "𑃔𑃠"%u; "𑃙𑃨"%u; "𑃑"%u;
    "𑃑𑃠"%u; "𑃔𑃨"%u; "𑃔𑃨𑃠ʽ"%u; "𑃙"%u; "𑃛"%u; "𑃛𑃠"%u; "𑃒"%u; "𑃒𑃠"%u;
    "𑃖"%u; "𑃜"%u; "𑃝"%u; "𑃘"%u; "𑃚"%u; "𑃐𑃠ʽ"%u; "𑃐𑃨"%u; "𑃐"%u;
    "𑃞"%u]);
   ("SouthConsonantMap"%u, ["𑃘𑃨"%u; "𑃘𑃨ʽ"%u; "𑃘ʽ"%u; "𑃙ʽ"%u]);
   ("NuktaConsonantMap"%u, ["𑃟ʽ"%u; "𑃟𑃠ʽ"%u; "𑃕ʽ"%u; "𑃠ʽ"%u; "𑃝𑃔"%u; "𑃝𑃔𑃠"%u; "𑃛𑃠ʽ"%u; "𑃜ʽ"%u]);
   ("SinhalaConsonantMap"%u, ["𑃗𑃕ʽ"%u; "𑃡𑃓ʽ"%u; "𑃙𑃨𑃔ʽ"%u; "𑃙𑃔ʽ"%u; "𑃖𑃛ʽ"%u]);
   ("NuktaMap"%u, ["𑃨ʽ"%u]);
   ("OmMap"%u, ["𑃦𑃖ʽ"%u]);
   ("SignMap"%u, ["'"%u; "."%u; ".."%u]);
   ("Aytham"%u, ["𑃞ʽ"%u]);
   ("NumeralMap"%u, ["𑃰"%u; "𑃱"%u; "𑃲"%u; "𑃳"%u; "𑃴"%u; "𑃵"%u; "𑃶"%u; "𑃷"%u;
    "𑃸"%u; "𑃹"%u])].

(** aksharamukha/ScriptMap/Roman/TeluguRomanLoC.py:5-148 *)
Definition S_Roman_TeluguRomanLoC : table :=
  [("VowelMap"%u, ["a"%u; "ā"%u; "i"%u; "ī"%u; "u"%u; "ū"%u; "r̥"%u; "r̥̄"%u;
    "l̥"%u; "l̥̄"%u; "ē"%u; "ai"%u; "ō"%u; "au"%u]);
   ("SouthVowelMap"%u, ["e"%u; "o"%u]);
   ("ModernVowelMap"%u, ["æ"%u; "ô"%u]);
   ("SinhalaVowelMap"%u, ["ǣ"%u]);
   ("VowelSignMap"%u, ["ā"%u; "i"%u; "ī"%u; "u"%u; "ū"%u; "r̥"%u; "r̥̄"%u; "l̥"%u;
    "l̥̄"%u; "ē"%u; "ai"%u; "ō"%u; "au"%u]);
   ("SouthVowelSignMap"%u, ["e"%u; "o"%u]);
   ("ModernVowelSignMap"%u, ["æ"%u; "ô"%u]);
   ("SinhalaVowelSignMap"%u, ["ǣ"%u]);
   ("AyogavahaMap"%u, ["m̐"%u; "ṃ"%u; "ḥ"%u]);
   ("ViramaMap"%u, ["×"%u]);
   ("ConsonantMap"%u, ["k"%u; "kh"%u; "g"%u; "gh"%u; "ṅ"%u; "c"%u; "ch"%u; "j"%u;
    "jh"%u; "ñ"%u; "ṭ"%u; "ṭh"%u; "ḍ"%u; "ḍh"%u; "ṇ"%u; "t"%u;
    "th"%u; "d"%u; "dh"%u; "n"%u; "p"%u; "ph"%u; "b"%u; "bh"%u;
    "m"%u; "y"%u; "r"%u; "l"%u; "v"%u; "ś"%u; "ṣ"%u; "s"%u;
    "h"%u]);
   ("SouthConsonantMap"%u, ["ḷ"%u; "l̤"%u; "ṟ"%u; "ṉ"%u]);
   ("NuktaConsonantMap"%u, ["q"%u; "k͟h"%u; "ġ"%u; "z"%u; "ṛ"%u; "ṛh"%u; "f"%u; "ẏ"%u]);
   ("SinhalaConsonantMap"%u, ["n̆g"%u; "n̆j"%u; "n̆ḍ"%u; "n̆d"%u; "m̆b"%u]);
   ("NuktaMap"%u, [[0x308]%N]);
   ("OmMap"%u, ["ōṃ"%u]);
   ("Aytham"%u, ["ḵ"%u]);
   ("SignMap"%u, ["’"%u; "."%u; ".."%u]);
   ("NumeralMap"%u, ["0"%u; "1"%u; "2"%u; "3"%u; "4"%u; "5"%u; "6"%u; "7"%u;
    "8"%u; "9"%u])].

(** aksharamukha/ScriptMap/Roman/ThamLoCRomanLoC.py:5-149 *)
Definition S_Roman_ThamLoCRomanLoC : table :=
  [("VowelMap"%u, ["a"%u; "ā"%u; "i"%u; "ī"%u; "u"%u; "ū"%u; "ṛ"%u; "ṝ"%u;
    "l̤"%u; "l̤̄"%u; "e"%u; "ai"%u; "o"%u; "ò"%u]);
   ("SouthVowelMap"%u, ["ĕ"%u; "ŏ"%u]);
   ("ModernVowelMap"%u, ["æ"%u; "ô"%u]);
   ("SinhalaVowelMap"%u, ["ǣ"%u]);
   ("VowelSignMap"%u, ["ā"%u; "i"%u; "ī"%u; "u"%u; "ū"%u; "ṛ"%u; "ṝ"%u; "l̤"%u;
    "l̤̄"%u; "e"%u; "ai"%u; "o"%u; "ò"%u]);
   ("SouthVowelSignMap"%u, ["ĕ"%u; "ŏ"%u]);
   ("ModernVowelSignMap"%u, ["æ"%u; "ô"%u]);
   ("SinhalaVowelSignMap"%u, ["ǣ"%u]);
   ("AyogavahaMap"%u, ["m̐"%u; "ṃ"%u; "ḥ"%u]);
   ("ViramaMap"%u, ["×"%u]);
   ("ConsonantMap"%u, ["k"%u; "kh"%u; "g"%u; "gh"%u; "ṅ"%u; "c"%u; "ch"%u; "j"%u;
    "jh"%u; "ñ"%u; "ṭ"%u; "ṭh"%u; "ḍ"%u; "ḍh"%u; "ṇ"%u; "t"%u;
    "th"%u; "d"%u; "dh"%u; "n"%u; "p"%u; "ph"%u; "b"%u; "bh"%u;
    "m"%u; "y"%u; "r"%u; "l"%u; "v"%u; "ś"%u; "ṣ"%u; "s"%u;
    "h"%u]);
   ("SouthConsonantMap"%u, ["ḷ"%u; "ḻ"%u; "ṟ"%u; "ṉ"%u]);
   ("NuktaConsonantMap"%u, ["q"%u; "k͟h"%u; "ġ"%u; "z"%u; "r̤"%u; "r̤h"%u; "f"%u; "ẏ"%u]);
   ("SinhalaConsonantMap"%u, ["n̆g"%u; "n̆j"%u; "n̆ḍ"%u; "n̆d"%u; "m̆b"%u]);
   ("NuktaMap"%u, [[0x308]%N]);
   ("OmMap"%u, ["oṃ"%u]);
   ("SignMap"%u, ["'ʽ"%u; "."%u; ".."%u]);
   ("Aytham"%u, ["ḵ"%u]);
   ("NumeralMap"%u, ["0"%u; "1"%u; "2"%u; "3"%u; "4"%u; "5"%u; "6"%u; "7"%u;
    "8"%u; "9"%u])].

(** aksharamukha/ScriptMap/Roman/TibetanLoCRomanLoC.py:5-148 *)
Definition S_Roman_TibetanLoCRomanLoC : table :=
  [("VowelMap"%u, ["a"%u; "ā"%u; "i"%u; "ī"%u; "u"%u; "ū"%u; "r̥"%u; "r̥̄"%u;
    "l̥"%u; "l̥̄"%u; "e"%u; "ai"%u; "o"%u; "au"%u]);
   ("SouthVowelMap"%u, ["ĕ"%u; "ŏ"%u]);
   ("ModernVowelMap"%u, ["æ"%u; "ô"%u]);
   ("SinhalaVowelMap"%u, ["ǣ"%u]);
   ("VowelSignMap"%u, ["ā"%u; "i"%u; "ī"%u; "u"%u; "ū"%u; "r̥"%u; "r̥̄"%u; "l̥"%u;
    "l̥̄"%u; "e"%u; "ai"%u; "o"%u; "au"%u]);
   ("SouthVowelSignMap"%u, ["ĕ"%u; "ŏ"%u]);
   ("ModernVowelSignMap"%u, ["æ"%u; "ô"%u]);
   ("SinhalaVowelSignMap"%u, ["ǣ"%u]);
   ("AyogavahaMap"%u, ["m̐"%u; "ṃ"%u; "ḥ"%u]);
   ("ViramaMap"%u, ["×"%u]);
   ("ConsonantMap"%u, ["k"%u; "kh"%u; "g"%u; "gh"%u; "ng"%u; "c"%u; "ch"%u; "j"%u;
    "jh"%u; "ny"%u; "ṭ"%u; "ṭh"%u; "ḍ"%u; "ḍh"%u; "ṇ"%u; "tʹ"%u;
    "th"%u; "d"%u; "dh"%u; "nʹ"%u; "p"%u; "ph"%u; "b"%u; "bh"%u;
    "m"%u; "y"%u; "r"%u; "l"%u; "w"%u; "sh"%u; "ṣ"%u; "s"%u;
    "h"%u]);
   ("SouthConsonantMap"%u, ["ḷ"%u; "ḻ"%u; "ṟ"%u; "ṉ"%u]);
   ("NuktaConsonantMap"%u, ["ts"%u; "tsh"%u; "dz"%u; "dzh"%u; "’"%u; "zh"%u; "z"%u; "ẏ"%u]);
   ("SinhalaConsonantMap"%u, ["n̆g"%u; "n̆j"%u; "n̆ḍ"%u; "n̆d"%u; "m̆b"%u]);
   ("NuktaMap"%u, [[0x308]%N]);
   ("OmMap"%u, ["oṃ"%u]);
   ("Aytham"%u, ["ḵ"%u]);
   ("SignMap"%u, ["`"%u; "."%u; ".."%u]);
   ("NumeralMap"%u, ["0"%u; "1"%u; "2"%u; "3"%u; "4"%u; "5"%u; "6"%u; "7"%u;
    "8"%u; "9"%u])].

(** aksharamukha/ScriptMap/Roman/Titus.py:5-149 *)
Definition S_Roman_Titus : table :=
  [("VowelMap"%u, ["a"%u; "ā"%u; "i"%u; "ī"%u; "u"%u; "ū"%u; "r̥"%u; "r̥̄"%u;
    "l̥"%u; "l̥̄"%u; "e"%u; "ai"%u; "o"%u; "au"%u]);
   ("SouthVowelMap"%u, ["ĕ"%u; "ŏ"%u]);
   ("ModernVowelMap"%u, ["æ"%u; "ô"%u]);
   ("SinhalaVowelMap"%u, ["ǣ"%u]);
   ("VowelSignMap"%u, ["ā"%u; "i"%u; "ī"%u; "u"%u; "ū"%u; "r̥"%u; "r̥̄"%u; "l̥"%u;
    "l̥̄"%u; "e"%u; "ai"%u; "o"%u; "au"%u]);
   ("SouthVowelSignMap"%u, ["ĕ"%u; "ŏ"%u]);
   ("ModernVowelSignMap"%u, ["æ"%u; "ô"%u]);
   ("SinhalaVowelSignMap"%u, ["ǣ"%u]);
   ("AyogavahaMap"%u, ["m̐"%u; "ṃ"%u; "ḥ"%u]);
   ("ViramaMap"%u, ["×"%u]);
   ("ConsonantMap"%u, ["k"%u; "kʰ"%u; "g"%u; "gʰ"%u; "ṅ"%u; "c"%u; "cʰ"%u; "j"%u;
    "jʰ"%u; "ñ"%u; "ṭ"%u; "ṭʰ"%u; "ḍ"%u; "ḍʰ"%u; "ṇ"%u; "t"%u;
    "tʰ"%u; "d"%u; "dʰ"%u; "n"%u; "p"%u; "pʰ"%u; "b"%u; "bʰ"%u;
    "m"%u; "y"%u; "r"%u; "l"%u; "v"%u; "ś"%u; "ṣ"%u; "s"%u;
    "h"%u]);
   ("SouthConsonantMap"%u, ["ḷ"%u; "ḻ"%u; "ṟ"%u; "ṉ"%u]);
   ("NuktaConsonantMap"%u, ["q"%u; "k͟ʰ"%u; "ġ"%u; "z"%u; "ṛ"%u; "ṛʰ"%u; "f"%u; "ẏ"%u]);
   ("NuktaMap"%u, [[0x308]%N]);
   ("OmMap"%u, ["oṃ"%u]);
   ("SignMap"%u, ["'"%u; "."%u; ".."%u]);
   ("SinhalaConsonantMap"%u, ["n̆g"%u; "n̆j"%u; "n̆ḍ"%u; "n̆d"%u; "m̆b"%u]);
   ("Aytham"%u, ["ḵ"%u]);
   ("NumeralMap"%u, ["0"%u; "1"%u; "2"%u; "3"%u; "4"%u; "5"%u; "6"%u; "7"%u;
    "8"%u; "9"%u])].

(** aksharamukha/ScriptMap/Roman/TolongSiki.py:8-153 *)
Definition S_Roman_TolongSiki : table :=
  [("VowelMap"%u, ["a"%u; "A"%u; "i"%u; "iʽ"%u; "u"%u; "uʽ"%u; "ruʽ"%u; "ruʽ"%u;
    "luʽ"%u; "luʽ"%u; "e"%u; "ai"%u; "o"%u; "au"%u]);
   ("SouthVowelMap"%u, ["eʽ"%u; "aʽ"%u]);
   ("ModernVowelMap"%u, ["eʽ"%u; "Aʽ"%u]);
   ("SinhalaVowelMap"%u, ["Aʽ"%u]);
   ("VowelSignMap"%u, ["A"%u; "i"%u; "iʽ"%u; "u"%u; "uʽ"%u; "ruʽ"%u; "ruʽ"%u; "luʽ"%u;
    "luʽ"%u; "e"%u; "ai"%u; "o"%u; "au"%u]);
   ("SouthVowelSignMap"%u, ["eʽ"%u; "aʽ"%u]);
   ("ModernVowelSignMap"%u, ["eʽ"%u; "Aʽ"%u]);
   ("SinhalaVowelSignMap"%u, ["Aʽ"%u]);
   ("AyogavahaMap"%u, ["Mʽ"%u; "M"%u; "hʽ"%u]);
   ("ViramaMap"%u, ["×"%u]);
   ("ConsonantMap"%u, ["k"%u; "K"%u; "g"%u; "G"%u; "W"%u; "c"%u; "C"%u; "j"%u;
    "J"%u; "Y"%u; "t"%u; "T"%u; "d"%u; "D"%u; "N"%u; "q"%u;
    "Q"%u; "v"%u; "V"%u; "n"%u; "p"%u; "P"%u; "b"%u; "B"%u;
    "m"%u; "y"%u; "r"%u; "l"%u; "w"%u; "sʽ"%u; "sʽ"%u; "s"%u;
    "h"%u]);
   ("SouthConsonantMap"%u, ["lʽ"%u; "lʽ"%u; "rʽ"%u; "nʽ"%u]);
   ("NuktaConsonantMap"%u, ["kʽ"%u; "x"%u; "gʽ"%u; "jʽ"%u; "z"%u; "Z"%u; "Pʽ"%u; "yʽ"%u]);
   ("SinhalaConsonantMap"%u, ["Mg"%u; "Mj"%u; "Md"%u; "Mv"%u; "Mb"%u]);
   ("NuktaMap"%u, ["ʽʽʽʽ"%u]);
   ("OmMap"%u, ["oM"%u]);
   ("SignMap"%u, ["'"%u; "."%u; ".."%u]);
   ("Aytham"%u, ["hʽ"%u]);
   ("NumeralMap"%u, ["0"%u; "¡"%u; "¢"%u; "£"%u; "¤"%u; "¥"%u; "¦"%u; "§"%u;
    "¨"%u; "©"%u])].

(** aksharamukha/ScriptMap/Roman/Velthuis.py:5-149 *)
Definition S_Roman_Velthuis : table :=
  [("VowelMap"%u, ["a"%u; "aa"%u; "i"%u; "ii"%u; "u"%u; "uu"%u; ".r"%u; ".R"%u;
    ".l"%u; ".L"%u; "e"%u; "ai"%u; "o"%u; "au"%u]);
   ("SouthVowelMap"%u, ["E"%u; "O"%u]);
   ("ModernVowelMap"%u, ["aE"%u; "aO"%u]);
   ("SinhalaVowelMap"%u, ["AE"%u]);
   ("VowelSignMap"%u, ["aa"%u; "i"%u; "ii"%u; "u"%u; "uu"%u; ".r"%u; ".R"%u; ".l"%u;
    ".L"%u; "e"%u; "ai"%u; "o"%u; "au"%u]);
   ("SouthVowelSignMap"%u, ["E"%u; "O"%u]);
   ("ModernVowelSignMap"%u, ["aE"%u; "aO"%u]);
   ("SinhalaVowelSignMap"%u, ["AE"%u]);
   ("AyogavahaMap"%u, ["~m"%u; ".m"%u; ".h"%u]);
   ("ViramaMap"%u, ["×"%u]);
   ("ConsonantMap"%u, ["k"%u; "kh"%u; "g"%u; "gh"%u; """n"%u; "c"%u; "ch"%u; "j"%u;
    "jh"%u; "~n"%u; ".t"%u; ".th"%u; ".d"%u; ".dh"%u; ".n"%u; "t"%u;
    "th"%u; "d"%u; "dh"%u; "n"%u; "p"%u; "ph"%u; "b"%u; "bh"%u;
    "m"%u; "y"%u; "r"%u; "l"%u; "v"%u; """s"%u; ".s"%u; "s"%u;
    "h"%u]);
   ("SouthConsonantMap"%u, ["..l"%u; "_l"%u; "_r"%u; "_n"%u]);
   ("NuktaConsonantMap"%u, ["q"%u; "_kh"%u; ".g"%u; "z"%u; "..r"%u; "..rh"%u; "f"%u; ".y"%u]);
   ("SinhalaConsonantMap"%u, ["n*g"%u; "n*j"%u; "n*.d"%u; "n*d"%u; "m*b"%u]);
   ("NuktaMap"%u, ["Q"%u]);
   ("OmMap"%u, ["o.m"%u]);
   ("SignMap"%u, [".a"%u; "."%u; ".."%u]);
   ("Aytham"%u, ["_k"%u]);
   ("NumeralMap"%u, ["0"%u; "1"%u; "2"%u; "3"%u; "4"%u; "5"%u; "6"%u; "7"%u;
    "8"%u; "9"%u])].

(** aksharamukha/ScriptMap/Roman/WX-kok.py:5-149 *)
Definition S_Roman_WX_kok : table :=
  [("VowelMap"%u, ["a"%u; "A"%u; "i"%u; "I"%u; "u"%u; "U"%u; "q"%u; "qVY"%u;
    "LY"%u; "LVY"%u; "E"%u; "Y"%u; "O"%u; "Q"%u]);
   ("SouthVowelMap"%u, ["e"%u; "o"%u]);
   ("ModernVowelMap"%u, ["Z"%u; "V"%u]);
   ("SinhalaVowelMap"%u, ["AEVY"%u]);
   ("VowelSignMap"%u, ["A"%u; "i"%u; "I"%u; "u"%u; "U"%u; "q"%u; "qVY"%u; "LY"%u;
    "LVY"%u; "E"%u; "Y"%u; "O"%u; "Q"%u]);
   ("SouthVowelSignMap"%u, ["e"%u; "o"%u]);
   ("ModernVowelSignMap"%u, ["Z"%u; "V"%u]);
   ("SinhalaVowelSignMap"%u, ["AEVY"%u]);
   ("AyogavahaMap"%u, ["~"%u; "M"%u; "H"%u]);
   ("ViramaMap"%u, ["×"%u]);
   ("ConsonantMap"%u, ["k"%u; "K"%u; "g"%u; "G"%u; "f"%u; "c"%u; "C"%u; "j"%u;
    "J"%u; "F"%u; "t"%u; "T"%u; "d"%u; "D"%u; "N"%u; "w"%u;
    "W"%u; "x"%u; "X"%u; "n"%u; "p"%u; "P"%u; "b"%u; "B"%u;
    "m"%u; "y"%u; "r"%u; "l"%u; "v"%u; "z"%u; "S"%u; "s"%u;
    "h"%u]);
   ("SouthConsonantMap"%u, ["L"%u; "lYYY"%u; "R"%u; "nYY"%u]);
   ("NuktaConsonantMap"%u, ["kYY"%u; "KYY"%u; "GYY"%u; "zYY"%u; "dYY"%u; "DYY"%u; "PYY"%u; "yYY"%u]);
   ("SinhalaConsonantMap"%u, ["nYYgY"%u; "nYYjY"%u; "nYYdY"%u; "nYYxY"%u; "mYYbY"%u]);
   ("NuktaMap"%u, ["QY"%u]);
   ("OmMap"%u, ["oMY"%u]);
   ("SignMap"%u, ["'Y"%u; ".Y"%u; "..Y"%u]);
   ("Aytham"%u, ["kYYY"%u]);
   ("NumeralMap"%u, ["0"%u; "1"%u; "2"%u; "3"%u; "4"%u; "5"%u; "6"%u; "7"%u;
    "8"%u; "9"%u])].

(** aksharamukha/ScriptMap/Roman/WX.py:5-149 *)
Definition S_Roman_WX : table :=
  [("VowelMap"%u, ["a"%u; "A"%u; "i"%u; "I"%u; "u"%u; "U"%u; "q"%u; "qV"%u;
    "L"%u; "LV"%u; "e"%u; "E"%u; "o"%u; "O"%u]);
   ("SouthVowelMap"%u, ["eV"%u; "oV"%u]);
   ("ModernVowelMap"%u, ["aEV"%u; "aOV"%u]);
   ("SinhalaVowelMap"%u, ["AEV"%u]);
   ("VowelSignMap"%u, ["A"%u; "i"%u; "I"%u; "u"%u; "U"%u; "q"%u; "qV"%u; "L"%u;
    "LV"%u; "e"%u; "E"%u; "o"%u; "O"%u]);
   ("SouthVowelSignMap"%u, ["eV"%u; "oV"%u]);
   ("ModernVowelSignMap"%u, ["aEV"%u; "aOV"%u]);
   ("SinhalaVowelSignMap"%u, ["AEV"%u]);
   ("AyogavahaMap"%u, ["z"%u; "M"%u; "H"%u]);
   ("ViramaMap"%u, ["×"%u]);
   ("ConsonantMap"%u, ["k"%u; "K"%u; "g"%u; "G"%u; "f"%u; "c"%u; "C"%u; "j"%u;
    "J"%u; "F"%u; "t"%u; "T"%u; "d"%u; "D"%u; "N"%u; "w"%u;
    "W"%u; "x"%u; "X"%u; "n"%u; "p"%u; "P"%u; "b"%u; "B"%u;
    "m"%u; "y"%u; "r"%u; "l"%u; "v"%u; "S"%u; "R"%u; "s"%u;
    "h"%u]);
   ("SouthConsonantMap"%u, ["lY"%u; "lYY"%u; "rY"%u; "nY"%u]);
   ("NuktaConsonantMap"%u, ["kY"%u; "KY"%u; "GY"%u; "zY"%u; "dY"%u; "DY"%u; "PY"%u; "yY"%u]);
   ("SinhalaConsonantMap"%u, ["nYYg"%u; "nYYj"%u; "nYYd"%u; "nYYx"%u; "mYYb"%u]);
   ("NuktaMap"%u, ["Q"%u]);
   ("OmMap"%u, ["oM"%u]);
   ("SignMap"%u, ["Z"%u; "."%u; ".."%u]);
   ("Aytham"%u, ["kYY"%u]);
   ("NumeralMap"%u, ["0"%u; "1"%u; "2"%u; "3"%u; "4"%u; "5"%u; "6"%u; "7"%u;
    "8"%u; "9"%u])].

(** aksharamukha/ScriptMap/Roman/Wancho.py:5-149 *)
Definition S_Roman_Wancho : table :=
  [("VowelMap"%u, ["𞋁"%u; "𞋀"%u; "𞋜"%u; "𞋜ʽ"%u; "𞋞"%u; "𞋞ʽ"%u; "𞋗𞋞ʽ"%u; "𞋗𞋞ʽ"%u;
    "𞋈𞋞ʽ"%u; "𞋈𞋞ʽ"%u; "𞋛"%u; "𞋀𞋜"%u; "𞋕"%u; "𞋖"%u]);
   ("SouthVowelMap"%u, ["𞋛ʽ"%u; "𞋕ʽ"%u]);
   ("ModernVowelMap"%u, ["𞋛ʽ"%u; "𞋀ʽ"%u]);
   ("SinhalaVowelMap"%u, ["𞋛ʽ"%u]);
   ("VowelSignMap"%u, ["𞋀"%u; "𞋜"%u; "𞋜ʽ"%u; "𞋞"%u; "𞋞ʽ"%u; "𞋗𞋞ʽ"%u; "𞋗𞋞ʽ"%u; "𞋈𞋞ʽ"%u;
    "𞋈𞋞ʽ"%u; "𞋛"%u; "𞋀𞋜"%u; "𞋕"%u; "𞋖"%u]);
   ("SouthVowelSignMap"%u, ["𞋛ʽ"%u; "𞋕ʽ"%u]);
   ("ModernVowelSignMap"%u, ["𞋛ʽ"%u; "𞋀ʽ"%u]);
   ("SinhalaVowelSignMap"%u, ["𞋛ʽ"%u]);
   ("AyogavahaMap"%u, ["ʿ"%u; "ʾ"%u; "𞋫"%u]);
   ("ViramaMap"%u, ["×"%u]);
   ("ConsonantMap"%u, ["𞋔"%u; "𞋙"%u; "𞋅"%u; "𞋅ʽ"%u; "𞋝"%u; "𞋃"%u; "𞋃ʽ"%u; "𞋐"%u;
    "𞋐ʽ"%u; "𞋩"%u; "𞋋ʽ"%u; "𞋌ʽ"%u; "𞋄ʽ"%u; "𞋄ʽ"%u; "𞋉ʽ"%u; "𞋋"%u;
    "𞋌"%u; "𞋄"%u; "𞋄ʽ"%u; "𞋉"%u; "𞋊"%u; "𞋇"%u; "𞋂"%u; "𞋂ʽ"%u;
    "𞋘"%u; "𞋆"%u; "𞋗"%u; "𞋈"%u; "𞋓"%u; "𞋏"%u; "𞋏ʽ"%u; "𞋎"%u;
    "𞋚"%u]);
   ("SouthConsonantMap"%u, ["𞋟"%u; "𞋟ʽ"%u; "𞋗ʽ"%u; "𞋉ʽ"%u]);
   ("NuktaConsonantMap"%u, ["𞋔ʽ"%u; "𞋙ʽ"%u; "𞋅ʽ"%u; "𞋑"%u; "𞋄ʽ"%u; "𞋄ʽ"%u; "𞋍"%u; "𞋆ʽ"%u]);
   ("SinhalaConsonantMap"%u, ["𞋝𞋅ʽ"%u; "𞋩𞋐ʽ"%u; "𞋉𞋄ʽ"%u; "𞋉𞋄ʽ"%u; "𞋘𞋂ʽ"%u]);
   ("NuktaMap"%u, ["Ø"%u]);
   ("OmMap"%u, ["𞋦ʽ"%u]);
   ("SignMap"%u, ["ʽʽ"%u; "."%u; ".."%u]);
   ("Aytham"%u, ["𞋔ʽ"%u]);
   ("NumeralMap"%u, ["𞋰"%u; "𞋱"%u; "𞋲"%u; "𞋳"%u; "𞋴"%u; "𞋵"%u; "𞋶"%u; "𞋷"%u;
    "𞋸"%u; "𞋹"%u])].

(** aksharamukha/ScriptMap/Roman/WarangCiti.py:5-152 *)
Definition S_Roman_WarangCiti : table :=
  [("VowelMap"%u, ["𑣁"%u; "𑣁𑣙ʾ"%u; "𑣂"%u; "𑣆"%u; "𑣃"%u; "𑣇"%u; "𑣜𑣃ʽ"%u; "𑣜𑣇ʽ"%u;
    "𑣚𑣃ʽ"%u; "𑣚𑣇ʽ"%u; "𑣈"%u; "𑣆ʽ"%u; "𑣉"%u; "𑣇ʽ"%u]);
   ("SouthVowelMap"%u, ["𑣈ʽ"%u; "𑣉ʽ"%u]);
   ("ModernVowelMap"%u, ["𑣈ʽ"%u; "𑣁𑣙ʽ"%u]);
   ("SinhalaVowelMap"%u, ["𑣈ʽ"%u]);
   ("VowelSignMap"%u, ["𑣁𑣙ʾ"%u; "𑣂"%u; "𑣆"%u; "𑣃"%u; "𑣇"%u; "𑣜𑣃ʽ"%u; "𑣜𑣇ʽ"%u; "𑣚𑣃ʽ"%u;
    "𑣚𑣇ʽ"%u; "𑣈"%u; "𑣆ʽ"%u; "𑣉"%u; "𑣇ʽ"%u]);
   ("SouthVowelSignMap"%u, ["𑣈ʽ"%u; "𑣉ʽ"%u]);
   ("ModernVowelSignMap"%u, ["𑣈ʽ"%u; "𑣁𑣙ʽ"%u]);
   ("SinhalaVowelSignMap"%u, ["𑣈ʽ"%u]);
   ("AyogavahaMap"%u, ["𑣀ʽ"%u; "𑣀"%u; "𑣄"%u]);
   ("ViramaMap"%u, ["×"%u]);
   ("ConsonantMap"%u, ["𑣌"%u; [0x118CC; 0x200D; 0x118D9]%N; "𑣋"%u; [0x118CB; 0x200D; 0x118D9]%N; "𑣊"%u; "𑣏"%u; [0x118CF; 0x200D; 0x118D9]%N; "𑣎"%u;
    [0x118CE; 0x200D; 0x118D9]%N; "𑣍"%u; "𑣒"%u; [0x118D2; 0x200D; 0x118D9]%N; "𑣑"%u; [0x118D1; 0x200D; 0x118D9]%N; "𑣐"%u; "𑣕"%u;
    [0x118D5; 0x200D; 0x118D9]%N; "𑣔"%u; [0x118D4; 0x200D; 0x118D9]%N; "𑣓"%u; "𑣘"%u; [0x118D8; 0x200D; 0x118D9]%N; "𑣗"%u; [0x118D7; 0x200D; 0x118D9]%N;
    "𑣖"%u; "𑣅"%u; "𑣜"%u; "𑣚"%u; "𑣟"%u; "𑣝ʽ"%u; "𑣝"%u; "𑣞"%u;
    "𑣙"%u]);
   ("SouthConsonantMap"%u, ["𑣚ʽ"%u; "𑣚ʽ"%u; "𑣜ʽ"%u; "𑣓ʽ"%u]);
   ("NuktaConsonantMap"%u, ["𑣌ʽ"%u; [0x118CC; 0x200D; 0x118D9; 0x2BD]%N; "𑣋ʽ"%u; "𑣎ʽ"%u; "𑣛"%u; [0x118DB; 0x200D; 0x118D9]%N; "𑣘ʽ"%u; "𑣅ʽ"%u]);
   ("SinhalaConsonantMap"%u, ["𑣀𑣋ʽ"%u; "𑣀𑣎ʽ"%u; "𑣀𑣑ʽ"%u; "𑣀𑣔ʽ"%u; "𑣀𑣗ʽ"%u]);
   ("NuktaMap"%u, ["ʿ"%u]);
   ("OmMap"%u, ["𑣿ʽ"%u]);
   ("SignMap"%u, ["'"%u; "."%u; ".."%u]);
   ("Aytham"%u, ["𑣄ʽ"%u]);
   ("NumeralMap"%u, ["𑣠"%u; "𑣡"%u; "𑣢"%u; "𑣣"%u; "𑣤"%u; "𑣥"%u; "𑣦"%u; "𑣧"%u;
    "𑣨"%u; "𑣩"%u])].

(** aksharamukha/ScriptMap/NonIndic/Hebrew.py:5-170 *)
Definition S_NonIndic_Hebrew : table :=
  [("VowelMap"%u, ["אַ"%u; "אָ"%u; "אִ"%u; "אִי"%u; "אֻ"%u; "אוּ"%u; "רֻʽ"%u; "רוּʽ"%u;
    "לֻʽ"%u; "לוּʽ"%u; "אֵ"%u; "אַײְʽ"%u; "אוֹ"%u; "אַוְʽ"%u]);
   ("SouthVowelMap"%u, ["אֶ"%u; "אֹ"%u]);
   ("ModernVowelMap"%u, ["אָʽ"%u; "אֹʽ"%u]);
   ("SinhalaVowelMap"%u, ["אֵʽ"%u]);
   ("VowelSignMap"%u, [[0x5B8]%N; [0x5B4]%N; [0x5B4; 0x5D9]%N; [0x5BB]%N; "וּ"%u; [0x5B0; 0x5E8; 0x5BB; 0x2BD]%N; [0x5B0; 0x5E8; 0x5D5; 0x5BC; 0x2BD]%N; [0x5B0; 0x5DC; 0x5BB; 0x2BD]%N;
    [0x5B0; 0x5DC; 0x5D5; 0x5BC; 0x2BD]%N; [0x5B5]%N; [0x5B7; 0x5F2; 0x5B0; 0x2BD]%N; "וֹ"%u; [0x5B7; 0x5D5; 0x5B0; 0x2BD]%N]);
   ("SouthVowelSignMap"%u, [[0x5B6]%N; [0x5B9]%N]);
   ("ModernVowelSignMap"%u, [[0x5B8; 0x2BD]%N; [0x5B9; 0x2BD]%N]);
   ("SinhalaVowelSignMap"%u, [[0x5B5; 0x2BD]%N]);
   ("AyogavahaMap"%u, ["מְʼ"%u; "מְʼ"%u; "הְּʽ"%u]);
   ("ViramaMap"%u, [[0x5B0]%N]);
   ("ConsonantMap"%u, ["כּ"%u; "כʽ"%u; "ג"%u; "גʽ"%u; "נʽ"%u; "צ׳"%u; "צ׳ʽ"%u; "ג׳"%u;
    "ג׳ʽ"%u; "נʽ"%u; "טʽ"%u; "טʽ"%u; "דʽ"%u; "דʽ"%u; "נʽ"%u; "ט"%u;
    "טʽ"%u; "ד"%u; "דʽ"%u; "נ"%u; "פּ"%u; "פּʽ"%u; "בּ"%u; "בּʽ"%u;
    "מ"%u; "ײ"%u; "ר"%u; "ל"%u; "װ"%u; "שׁʽ"%u; "שׁ"%u; "ס"%u;
    "ה"%u]);
   ("SouthConsonantMap"%u, ["לʽ"%u; "לʽ"%u; "רʽ"%u; "נʽ"%u]);
   ("NuktaConsonantMap"%u, ["ק"%u; "כ"%u; "גּ"%u; "ז"%u; "דʽ"%u; "דʽ"%u; "פ"%u; "ײʽ"%u]);
   ("SinhalaConsonantMap"%u, ["נְגַʽ"%u; "נְגַ׳ʽ"%u; "נְדַʽ"%u; "נְדַʽ"%u; "מְבַּʽ"%u]);
   ("NuktaMap"%u, ["ʾ"%u]);
   ("OmMap"%u, ["אוֹמְʽ"%u]);
   ("SignMap"%u, ["'ʽ"%u; "."%u; ".."%u]);
   ("Aytham"%u, ["הְʽ"%u]);
   ("NumeralMap"%u, ["0"%u; "1"%u; "2"%u; "3"%u; "4"%u; "5"%u; "6"%u; "7"%u;
    "8"%u; "9"%u])].

(** aksharamukha/ScriptMap/NonIndic/OldPersian.py:5-163 *)
Definition S_NonIndic_OldPersian : table :=
  [("VowelMap"%u, ["𐎠"%u; "𐎠ʽ"%u; "𐎡"%u; "𐎡ʽ"%u; "𐎢"%u; "𐎢ʽ"%u; "𐎽𐎢ʽ"%u; "𐎽𐎢ʽ"%u;
    "𐎾𐎢ʽ"%u; "𐎾𐎢ʽ"%u; "𐎡ʽ"%u; "𐎠𐎡"%u; "𐎢ʽ"%u; "𐎠𐎢"%u]);
   ("SouthVowelMap"%u, ["𐎡ʽ"%u; "𐎢ʽ"%u]);
   ("ModernVowelMap"%u, ["𐎡ʽ"%u; "𐎠ʽ"%u]);
   ("SinhalaVowelMap"%u, ["𐎡ʽ"%u]);
   ("VowelSignMap"%u, ["_𐎠"%u; "_𐎡"%u; "𐎡𐎹ʽ"%u; "_𐎢"%u; "𐎢𐎺ʽ"%u; "𐎽𐎢ʽ"%u; "𐎽𐎢ʽ"%u; "𐎾𐎢ʽ"%u;
    "𐎾𐎢ʽ"%u; "𐎡ʽ"%u; "<𐎠𐎡"%u; "𐎢ʽ"%u; "<𐎠𐎢"%u]);
   ("SouthVowelSignMap"%u, ["𐎡ʽ"%u; "𐎢ʽ"%u]);
   ("ModernVowelSignMap"%u, ["𐎡ʽ"%u; "𐎠ʽ"%u]);
   ("SinhalaVowelSignMap"%u, ["𐎡ʽ"%u]);
   ("AyogavahaMap"%u, ["𐎶ʽ"%u; "𐎶ʽ"%u; "𐏃ʽ"%u]);
   ("ViramaMap"%u, ["ʽʽ"%u]);
   ("ConsonantMap"%u, ["𐎣"%u; "𐎧ʽ"%u; "𐎥"%u; "𐎥ʽ"%u; "𐎴ʽ"%u; "𐎨"%u; "𐎨ʽ"%u; "𐎩"%u;
    "𐎩ʽ"%u; "𐎴ʽ"%u; "𐎫ʽ"%u; "𐎫ʽ"%u; "𐎭ʽ"%u; "𐎭ʽ"%u; "𐎴ʽ"%u; "𐎫"%u;
    "𐎰"%u; "𐎭"%u; "𐎭ʽ"%u; "𐎴"%u; "𐎱"%u; "𐎱ʽ"%u; "𐎲"%u; "𐎲"%u;
    "𐎶"%u; "𐎹"%u; "𐎼"%u; "𐎾"%u; "𐎺"%u; "𐏁"%u; "𐏂"%u; "𐎿"%u;
    "𐏃"%u]);
   ("SouthConsonantMap"%u, ["𐎾ʽ"%u; "𐎾ʽ"%u; "𐎼ʽ"%u; "𐎴ʽ"%u]);
   ("NuktaConsonantMap"%u, ["𐎣ʽ"%u; "𐎧"%u; "𐎥ʽ"%u; "𐏀"%u; "𐎭ʽ"%u; "𐎭ʽ"%u; "𐎳"%u; "𐎹ʽ"%u]);
   ("SinhalaConsonantMap"%u, ["𐎴𐎥ʽ"%u; "𐎴𐎩ʽ"%u; "𐎴𐎭ʽ"%u; "𐎴𐎭ʽ"%u; "𐎶𐎲ʽ"%u]);
   ("NuktaMap"%u, ["ʽʽʽʽ"%u]);
   ("OmMap"%u, ["𐎢𐎶ʽ"%u]);
   ("SignMap"%u, ["ʽʽ"%u; "𐏐𐏐"%u; "𐏐𐏐ʽ"%u]);
   ("Aytham"%u, ["𐎧ʽ"%u]);
   ("NumeralMap"%u, ["0"%u; "1"%u; "2"%u; "3"%u; "4"%u; "5"%u; "6"%u; "7"%u;
    "8"%u; "9"%u])].

(** Module files under aksharamukha/ScriptMap: package directory, module name,
    tables, and whether the module ends with a call of GM.add_additional_chars. *)
Definition raw_modules : list (str * str * table * bool) :=
  [("MainIndic"%u, "Ahom"%u, S_MainIndic_Ahom, true);
   ("MainIndic"%u, "Assamese"%u, S_MainIndic_Assamese, true);
   ("MainIndic"%u, "Bengali"%u, S_MainIndic_Bengali, true);
   ("MainIndic"%u, "BengaliRaBa"%u, S_MainIndic_BengaliRaBa, true);
   ("MainIndic"%u, "Bhaiksuki"%u, S_MainIndic_Bhaiksuki, true);
   ("MainIndic"%u, "Brahmi"%u, S_MainIndic_Brahmi, true);
   ("MainIndic"%u, "Chakma"%u, S_MainIndic_Chakma, true);
   ("MainIndic"%u, "Devanagari"%u, S_MainIndic_Devanagari, true);
   ("MainIndic"%u, "Dogra"%u, S_MainIndic_Dogra, true);
   ("MainIndic"%u, "Grantha"%u, S_MainIndic_Grantha, true);
   ("MainIndic"%u, "GranthaGrantamil"%u, S_MainIndic_GranthaGrantamil, true);
   ("MainIndic"%u, "GranthaPandya"%u, S_MainIndic_GranthaPandya, true);
   ("MainIndic"%u, "Gujarati"%u, S_MainIndic_Gujarati, true);
   ("MainIndic"%u, "GunjalaGondi"%u, S_MainIndic_GunjalaGondi, true);
   ("MainIndic"%u, "Gurmukhi"%u, S_MainIndic_Gurmukhi, true);
   ("MainIndic"%u, "GurmukhiLoC"%u, S_MainIndic_GurmukhiLoC, true);
   ("MainIndic"%u, "Kaithi"%u, S_MainIndic_Kaithi, true);
   ("MainIndic"%u, "Kannada"%u, S_MainIndic_Kannada, true);
   ("MainIndic"%u, "Kharoshthi"%u, S_MainIndic_Kharoshthi, true);
   ("MainIndic"%u, "Khojki"%u, S_MainIndic_Khojki, true);
   ("MainIndic"%u, "Khudawadi"%u, S_MainIndic_Khudawadi, true);
   ("MainIndic"%u, "Lepcha"%u, S_MainIndic_Lepcha, true);
   ("MainIndic"%u, "Limbu"%u, S_MainIndic_Limbu, true);
   ("MainIndic"%u, "LimbuLoC"%u, S_MainIndic_LimbuLoC, true);
   ("MainIndic"%u, "Mahajani"%u, S_MainIndic_Mahajani, true);
   ("MainIndic"%u, "Malayalam"%u, S_MainIndic_Malayalam, true);
   ("MainIndic"%u, "MasaramGondi"%u, S_MainIndic_MasaramGondi, true);
   ("MainIndic"%u, "MeeteiMayek"%u, S_MainIndic_MeeteiMayek, true);
   ("MainIndic"%u, "Modi"%u, S_MainIndic_Modi, true);
   ("MainIndic"%u, "Multani"%u, S_MainIndic_Multani, true);
   ("MainIndic"%u, "Nandinagari"%u, S_MainIndic_Nandinagari, true);
   ("MainIndic"%u, "Newa"%u, S_MainIndic_Newa, true);
   ("MainIndic"%u, "Oriya"%u, S_MainIndic_Oriya, true);
   ("MainIndic"%u, "Ranjana"%u, S_MainIndic_Ranjana, true);
   ("MainIndic"%u, "Saurashtra"%u, S_MainIndic_Saurashtra, true);
   ("MainIndic"%u, "Shahmukhi"%u, S_MainIndic_Shahmukhi, true);
   ("MainIndic"%u, "Sharada"%u, S_MainIndic_Sharada, true);
   ("MainIndic"%u, "SiddhamDevanagari"%u, S_MainIndic_SiddhamDevanagari, true);
   ("MainIndic"%u, "Sinhala"%u, S_MainIndic_Sinhala, true);
   ("MainIndic"%u, "SylotiNagri"%u, S_MainIndic_SylotiNagri, true);
   ("MainIndic"%u, "SyriacMalayalam"%u, S_MainIndic_SyriacMalayalam, true);
   ("MainIndic"%u, "Takri"%u, S_MainIndic_Takri, true);
   ("MainIndic"%u, "Tamil"%u, S_MainIndic_Tamil, true);
   ("MainIndic"%u, "TamilBrahmi"%u, S_MainIndic_TamilBrahmi, true);
   ("MainIndic"%u, "TamilExtended"%u, S_MainIndic_TamilExtended, true);
   ("MainIndic"%u, "TamilGrantha"%u, S_MainIndic_TamilGrantha, true);
   ("MainIndic"%u, "Telugu"%u, S_MainIndic_Telugu, true);
   ("MainIndic"%u, "Tirhuta"%u, S_MainIndic_Tirhuta, true);
   ("MainIndic"%u, "Urdu"%u, S_MainIndic_Urdu, true);
   ("MainIndic"%u, "Vatteluttu"%u, S_MainIndic_Vatteluttu, true);
   ("EastIndic"%u, "Balinese"%u, S_EastIndic_Balinese, true);
   ("EastIndic"%u, "BatakKaro"%u, S_EastIndic_BatakKaro, true);
   ("EastIndic"%u, "BatakManda"%u, S_EastIndic_BatakManda, true);
   ("EastIndic"%u, "BatakPakpak"%u, S_EastIndic_BatakPakpak, true);
   ("EastIndic"%u, "BatakSima"%u, S_EastIndic_BatakSima, true);
   ("EastIndic"%u, "BatakToba"%u, S_EastIndic_BatakToba, true);
   ("EastIndic"%u, "Buginese"%u, S_EastIndic_Buginese, true);
   ("EastIndic"%u, "Buhid"%u, S_EastIndic_Buhid, true);
   ("EastIndic"%u, "Burmese"%u, S_EastIndic_Burmese, true);
   ("EastIndic"%u, "Cham"%u, S_EastIndic_Cham, true);
   ("EastIndic"%u, "DivesAkuru"%u, S_EastIndic_DivesAkuru, true);
   ("EastIndic"%u, "Hanunoo"%u, S_EastIndic_Hanunoo, true);
   ("EastIndic"%u, "Javanese"%u, S_EastIndic_Javanese, true);
   ("EastIndic"%u, "Kawi"%u, S_EastIndic_Kawi, true);
   ("EastIndic"%u, "KhamtiShan"%u, S_EastIndic_KhamtiShan, true);
   ("EastIndic"%u, "Khmer"%u, S_EastIndic_Khmer, true);
   ("EastIndic"%u, "KhmerLoC"%u, S_EastIndic_KhmerLoC, true);
   ("EastIndic"%u, "KhomThai"%u, S_EastIndic_KhomThai, true);
   ("EastIndic"%u, "KhuenTham"%u, S_EastIndic_KhuenTham, true);
   ("EastIndic"%u, "Lao"%u, S_EastIndic_Lao, true);
   ("EastIndic"%u, "Lao2"%u, S_EastIndic_Lao2, true);
   ("EastIndic"%u, "LaoPali"%u, S_EastIndic_LaoPali, true);
   ("EastIndic"%u, "LaoTham"%u, S_EastIndic_LaoTham, true);
   ("EastIndic"%u, "LueTham"%u, S_EastIndic_LueTham, true);
   ("EastIndic"%u, "Makasar"%u, S_EastIndic_Makasar, true);
   ("EastIndic"%u, "Marchen"%u, S_EastIndic_Marchen, true);
   ("EastIndic"%u, "Mon"%u, S_EastIndic_Mon, true);
   ("EastIndic"%u, "Pallava"%u, S_EastIndic_Pallava, true);
   ("EastIndic"%u, "PhagsPa"%u, S_EastIndic_PhagsPa, true);
   ("EastIndic"%u, "Rejang"%u, S_EastIndic_Rejang, true);
   ("EastIndic"%u, "Shan"%u, S_EastIndic_Shan, true);
   ("EastIndic"%u, "ShanLoC"%u, S_EastIndic_ShanLoC, true);
   ("EastIndic"%u, "Siddham"%u, S_EastIndic_Siddham, true);
   ("EastIndic"%u, "Soyombo"%u, S_EastIndic_Soyombo, true);
   ("EastIndic"%u, "Sundanese"%u, S_EastIndic_Sundanese, true);
   ("EastIndic"%u, "Tagalog"%u, S_EastIndic_Tagalog, true);
   ("EastIndic"%u, "Tagbanwa"%u, S_EastIndic_Tagbanwa, true);
   ("EastIndic"%u, "TaiLaing"%u, S_EastIndic_TaiLaing, true);
   ("EastIndic"%u, "TaiTham"%u, S_EastIndic_TaiTham, true);
   ("EastIndic"%u, "Thaana"%u, S_EastIndic_Thaana, true);
   ("EastIndic"%u, "Thai"%u, S_EastIndic_Thai, true);
   ("EastIndic"%u, "ThamLoC"%u, S_EastIndic_ThamLoC, true);
   ("EastIndic"%u, "Tibetan"%u, S_EastIndic_Tibetan, true);
   ("EastIndic"%u, "TibetanLoC"%u, S_EastIndic_TibetanLoC, true);
   ("EastIndic"%u, "ZanabazarSquare"%u, S_EastIndic_ZanabazarSquare, true);
   ("Roman"%u, "Aksharaa"%u, S_Roman_Aksharaa, true);
   ("Roman"%u, "Ariyaka"%u, S_Roman_Ariyaka, true);
   ("Roman"%u, "AssameseRomanLoC"%u, S_Roman_AssameseRomanLoC, true);
   ("Roman"%u, "Avestan"%u, S_Roman_Avestan, true);
   ("Roman"%u, "BalineseRomanLoC"%u, S_Roman_BalineseRomanLoC, true);
   ("Roman"%u, "BalineseSimpleRomanLoC"%u, S_Roman_BalineseSimpleRomanLoC, true);
   ("Roman"%u, "BarahaNorth"%u, S_Roman_BarahaNorth, true);
   ("Roman"%u, "BarahaSouth"%u, S_Roman_BarahaSouth, true);
   ("Roman"%u, "BengaliRomanLoC"%u, S_Roman_BengaliRomanLoC, true);
   ("Roman"%u, "BurmeseRomanLoC"%u, S_Roman_BurmeseRomanLoC, true);
   ("Roman"%u, "DevanagariRomanLoC"%u, S_Roman_DevanagariRomanLoC, true);
   ("Roman"%u, "GreekModern"%u, S_Roman_GreekModern, true);
   ("Roman"%u, "GujaratiRomanLoC"%u, S_Roman_GujaratiRomanLoC, true);
   ("Roman"%u, "GurmukhiLoCRomanLoC"%u, S_Roman_GurmukhiLoCRomanLoC, true);
   ("Roman"%u, "HK"%u, S_Roman_HK, true);
   ("Roman"%u, "HanifiRohingya"%u, S_Roman_HanifiRohingya, true);
   ("Roman"%u, "IAST"%u, S_Roman_IAST, true);
   ("Roman"%u, "IASTPali"%u, S_Roman_IASTPali, true);
   ("Roman"%u, "IPA"%u, S_Roman_IPA, true);
   ("Roman"%u, "ISO"%u, S_Roman_ISO, true);
   ("Roman"%u, "ISOPali"%u, S_Roman_ISOPali, true);
   ("Roman"%u, "Inter"%u, S_Roman_Inter, true);
   ("Roman"%u, "Itrans"%u, S_Roman_Itrans, true);
   ("Roman"%u, "JavaneseRomanLoC"%u, S_Roman_JavaneseRomanLoC, true);
   ("Roman"%u, "JavaneseSimpleRomanLoC"%u, S_Roman_JavaneseSimpleRomanLoC, true);
   ("Roman"%u, "KannadaRomanLoC"%u, S_Roman_KannadaRomanLoC, true);
   ("Roman"%u, "KhmerLoCRomanLoC"%u, S_Roman_KhmerLoCRomanLoC, true);
   ("Roman"%u, "LimbuLoCRomanLoC"%u, S_Roman_LimbuLoCRomanLoC, true);
   ("Roman"%u, "Mongolian"%u, S_Roman_Mongolian, true);
   ("Roman"%u, "Mro"%u, S_Roman_Mro, true);
   ("Roman"%u, "OriyaRomanLoC"%u, S_Roman_OriyaRomanLoC, true);
   ("Roman"%u, "RomanColloquial"%u, S_Roman_RomanColloquial, true);
   ("Roman"%u, "RomanKana"%u, S_Roman_RomanKana, true);
   ("Roman"%u, "RomanReadable"%u, S_Roman_RomanReadable, true);
   ("Roman"%u, "RomanSemitic"%u, S_Roman_RomanSemitic, true);
   ("Roman"%u, "RussianCyrillic"%u, S_Roman_RussianCyrillic, true);
   ("Roman"%u, "SLP1"%u, S_Roman_SLP1, true);
   ("Roman"%u, "Santali"%u, S_Roman_Santali, true);
   ("Roman"%u, "ShanLoCRomanLoC"%u, S_Roman_ShanLoCRomanLoC, true);
   ("Roman"%u, "SinhalaRomanLoC"%u, S_Roman_SinhalaRomanLoC, true);
   ("Roman"%u, "SoraSompeng"%u, S_Roman_SoraSompeng, true);
   ("Roman"%u, "TeluguRomanLoC"%u, S_Roman_TeluguRomanLoC, true);
   ("Roman"%u, "ThamLoCRomanLoC"%u, S_Roman_ThamLoCRomanLoC, true);
   ("Roman"%u, "TibetanLoCRomanLoC"%u, S_Roman_TibetanLoCRomanLoC, true);
   ("Roman"%u, "Titus"%u, S_Roman_Titus, true);
   ("Roman"%u, "TolongSiki"%u, S_Roman_TolongSiki, true);
   ("Roman"%u, "Velthuis"%u, S_Roman_Velthuis, true);
   ("Roman"%u, "WX-kok"%u, S_Roman_WX_kok, true);
   ("Roman"%u, "WX"%u, S_Roman_WX, true);
   ("Roman"%u, "Wancho"%u, S_Roman_Wancho, true);
   ("Roman"%u, "WarangCiti"%u, S_Roman_WarangCiti, true);
   ("NonIndic"%u, "Hebrew"%u, S_NonIndic_Hebrew, true);
   ("NonIndic"%u, "OldPersian"%u, S_NonIndic_OldPersian, true)].
