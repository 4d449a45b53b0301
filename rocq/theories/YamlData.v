(** * The YAML tables (GENERATED by tools/gen_data.py; do not edit). *)
From Coq Require Import List NArith ZArith.
From Verif Require Import PyStr.
Import ListNotations.

(** One entry of aksharamukha/yaml/aksharamukha-scripts.yaml: the fields that
    transliterate.py reads. *)
Record yscript := YScript { y_script : str; y_lang : option str; y_font_hack : bool }.

(** aksharamukha/yaml/aksharamukha-scripts.yaml *)
Definition yaml_scripts : list (str * yscript) :=
  [("Ahom"%u, YScript "Ahom"%u (Some "aho"%u) false);
   ("Ariyaka"%u, YScript "Zzzz"%u None true);
   ("Assamese"%u, YScript "Beng"%u (Some "as"%u) false);
   ("Avestan"%u, YScript "Avst"%u (Some "ae, ave"%u) false);
   ("Balinese"%u, YScript "Bali"%u (Some "ban"%u) false);
   ("BatakKaro"%u, YScript "Batk"%u (Some "btx"%u) false);
   ("BatakManda"%u, YScript "Batk"%u (Some "btm"%u) false);
   ("BatakPakpak"%u, YScript "Batk"%u (Some "btd"%u) false);
   ("BatakSima"%u, YScript "Batk"%u (Some "bts"%u) false);
   ("BatakToba"%u, YScript "Batk"%u (Some "bbc"%u) false);
   ("Bengali"%u, YScript "Beng"%u (Some "bn, ben"%u) false);
   ("Bhaiksuki"%u, YScript "Bhks"%u None false);
   ("Brahmi"%u, YScript "Brah"%u None false);
   ("Buginese"%u, YScript "Bugi"%u (Some "bug"%u) false);
   ("Buhid"%u, YScript "Buhd"%u (Some "bku"%u) false);
   ("Burmese"%u, YScript "Mymr"%u (Some "my, bur, mya"%u) false);
   ("Chakma"%u, YScript "Cakm"%u (Some "ccp"%u) false);
   ("Cham"%u, YScript "Cham"%u (Some "cja, cjm"%u) false);
   ("Devanagari"%u, YScript "Deva"%u (Some "hi, hin, mr, mar"%u) false);
   ("Dogra"%u, YScript "Dogr"%u (Some "doi"%u) false);
   ("Grantha"%u, YScript "Gran"%u None false);
   ("GranthaPandya"%u, YScript "Zzzz"%u None true);
   ("Gujarati"%u, YScript "Gujr"%u (Some "gu, guj"%u) false);
   ("GunjalaGondi"%u, YScript "Gong"%u (Some "gon"%u) false);
   ("Gurmukhi"%u, YScript "Guru"%u (Some "pa, pan, pnb"%u) false);
   ("HanifiRohingya"%u, YScript "Rohg"%u (Some "rhg"%u) false);
   ("Hanunoo"%u, YScript "Hano"%u (Some "hnn"%u) false);
   ("Hebrew"%u, YScript "Hebr"%u (Some "he, heb"%u) false);
   ("Hiragana"%u, YScript "Hira"%u (Some "ja, jpn"%u) false);
   ("Javanese"%u, YScript "Java"%u (Some "jv, jav"%u) false);
   ("Kaithi"%u, YScript "Kthi"%u (Some "hi, hin, bho, mag, awa, anp"%u) false);
   ("Kannada"%u, YScript "Knda"%u (Some "kn, kan"%u) false);
   ("Katakana"%u, YScript "Kana"%u (Some "ja, jpn"%u) false);
   ("Kawi"%u, YScript "Kawi"%u (Some "kaw"%u) false);
   ("KhamtiShan"%u, YScript "Mymr"%u (Some "kht"%u) false);
   ("Kharoshthi"%u, YScript "Khar"%u (Some "pgd"%u) false);
   ("Khmer"%u, YScript "Khmr"%u (Some "km, khm"%u) false);
   ("Khojki"%u, YScript "Khoj"%u None false);
   ("KhomThai"%u, YScript "Zzzz"%u None false);
   ("Khudawadi"%u, YScript "Sind"%u (Some "sd, snd"%u) false);
   ("KhuenTham"%u, YScript "Lana"%u (Some "kkh"%u) false);
   ("Lao"%u, YScript "Laoo"%u (Some "lo, lau"%u) false);
   ("LaoPali"%u, YScript "Laoo"%u (Some "san, pi, pli"%u) false);
   ("LaoTham"%u, YScript "Lana"%u (Some "lo, lau"%u) false);
   ("Lepcha"%u, YScript "Lepc"%u (Some "lep"%u) false);
   ("Limbu"%u, YScript "Limb"%u (Some "lif"%u) false);
   ("LueTham"%u, YScript "Lana"%u (Some "khb"%u) false);
   ("Mahajani"%u, YScript "Mahj"%u (Some "mwr"%u) false);
   ("Makasar"%u, YScript "Makar"%u (Some "mak"%u) false);
   ("Malayalam"%u, YScript "Mlym"%u (Some "ml, mal"%u) false);
   ("Marchen"%u, YScript "Marc"%u (Some "xzh"%u) false);
   ("MasaramGondi"%u, YScript "Gonm"%u (Some "gon"%u) false);
   ("MeeteiMayek"%u, YScript "Mtei"%u (Some "mni"%u) false);
   ("Modi"%u, YScript "Modi"%u (Some "mr, mar"%u) false);
   ("Mon"%u, YScript "Mymr"%u (Some "mnw"%u) false);
   ("Mongolian"%u, YScript "Mong"%u None false);
   ("Mro"%u, YScript "Mroo"%u (Some "mro"%u) false);
   ("Multani"%u, YScript "Mult"%u (Some "skr"%u) false);
   ("Nandinagari"%u, YScript "Nand"%u None false);
   ("Newa"%u, YScript "Newa"%u (Some "new, nwx"%u) false);
   ("OldPersian"%u, YScript "Xpeo"%u (Some "fa, per"%u) false);
   ("Oriya"%u, YScript "Orya"%u (Some "or, ori, ory"%u) false);
   ("Pallava"%u, YScript "Zzzz"%u None false);
   ("PhagsPa"%u, YScript "Phag"%u None false);
   ("Ranjana"%u, YScript "Ranj"%u (Some "new, nwx"%u) false);
   ("Rejang"%u, YScript "Rjng"%u (Some "rej"%u) false);
   ("RussianCyrillic"%u, YScript "Cyrl"%u (Some "ru, rus"%u) false);
   ("Santali"%u, YScript "Olck"%u (Some "sat, mjx"%u) false);
   ("Saurashtra"%u, YScript "Saur"%u (Some "saz"%u) false);
   ("Shahmukhi"%u, YScript "Arab"%u (Some "pa, pan, pnb"%u) false);
   ("Shan"%u, YScript "Mymr"%u (Some "shn"%u) false);
   ("Sharada"%u, YScript "Shrd"%u (Some "ks, kas"%u) false);
   ("Siddham"%u, YScript "Sidd"%u None false);
   ("Sinhala"%u, YScript "Sinh"%u (Some "si, sin"%u) false);
   ("SoraSompeng"%u, YScript "Sora"%u (Some "srb"%u) false);
   ("Soyombo"%u, YScript "Soyo"%u None false);
   ("Sundanese"%u, YScript "Sund"%u (Some "su, sun, bac, osn"%u) false);
   ("SylotiNagri"%u, YScript "Sylo"%u (Some "syl"%u) false);
   ("Tagalog"%u, YScript "Tglg"%u (Some "tl, tgl,fil"%u) false);
   ("Tagbanwa"%u, YScript "Tagb"%u (Some "tbw, tbk, tgt"%u) false);
   ("TaiLaing"%u, YScript "Mymr"%u (Some "tjl"%u) false);
   ("TaiTham"%u, YScript "Lana"%u None false);
   ("Takri"%u, YScript "Takr"%u (Some "doi"%u) false);
   ("Tamil"%u, YScript "Taml"%u (Some "ta, tam"%u) false);
   ("TamilBrahmi"%u, YScript "Brah"%u (Some "oty"%u) false);
   ("TamilExtended"%u, YScript "Zzzz"%u None true);
   ("Telugu"%u, YScript "Telu"%u (Some "te, tel"%u) false);
   ("Thaana"%u, YScript "Thaa"%u (Some "dv, div"%u) false);
   ("Thai"%u, YScript "Thai"%u (Some "th, tha"%u) false);
   ("Tibetan"%u, YScript "Tibt"%u (Some "bo, bod, tib"%u) false);
   ("Tirhuta"%u, YScript "Tirh"%u (Some "mai"%u) false);
   ("Urdu"%u, YScript "Arab"%u (Some "ur, urd"%u) false);
   ("Arab"%u, YScript "Arab"%u (Some "ar, ara"%u) false);
   ("Arab-Fa"%u, YScript "Arab"%u (Some "fa, fas, per"%u) false);
   ("Vatteluttu"%u, YScript "Zzzz"%u (Some "ta, tam, oty, ml, mal"%u) true);
   ("Wancho"%u, YScript "Wcho"%u (Some "nnp"%u) false);
   ("WarangCiti"%u, YScript "Wara"%u (Some "hoc"%u) false);
   ("ZanabazarSquare"%u, YScript "Zanb"%u None false);
   ("Elym"%u, YScript "Elym"%u (Some "arc"%u) false);
   ("Ethi"%u, YScript "Ethi"%u (Some "gez"%u) false);
   ("Hatr"%u, YScript "Hatr"%u (Some "arc"%u) false);
   ("Hebr-Ar"%u, YScript "Hebr-Ar"%u (Some "Ar, Ara"%u) false);
   ("Armi"%u, YScript "Armi"%u (Some "arc"%u) false);
   ("Phli"%u, YScript "Phli"%u (Some "pal"%u) false);
   ("Prti"%u, YScript "Prti"%u (Some "pal"%u) false);
   ("Mani"%u, YScript "Mani"%u (Some "pal"%u) false);
   ("Nbat"%u, YScript "Nbat"%u (Some "qhy"%u) false);
   ("Narb"%u, YScript "Narb"%u (Some "ar, ara"%u) false);
   ("Sogo"%u, YScript "Sogo"%u (Some "sog"%u) false);
   ("Sarb"%u, YScript "Sarb"%u (Some "ar, ara"%u) false);
   ("Palm"%u, YScript "Palm"%u (Some "arc"%u) false);
   ("Phnx"%u, YScript "Phnx"%u (Some "phn"%u) false);
   ("Phlp"%u, YScript "Phlp"%u (Some "pal"%u) false);
   ("Samr"%u, YScript "Samr"%u (Some "sam"%u) false);
   ("Sogd"%u, YScript "Sogd"%u (Some "sog"%u) false);
   ("Syre"%u, YScript "Syre"%u (Some "Syr"%u) false);
   ("Syrn"%u, YScript "Syrn"%u (Some "Syr"%u) false);
   ("Syrj"%u, YScript "Syrj"%u (Some "Syr"%u) false);
   ("Ugar"%u, YScript "Ugar"%u (Some "uga"%u) false)].

(** aksharamukha/yaml/wikitra2-data.yaml: script tag -> language tag -> population *)
Definition yaml_wiki : list (str * list (str * Z)) :=
  [("Aghb"%u, [("und"%u, 0%Z); ("xag"%u, 0%Z)]);
   ("Ahom"%u, [("aho"%u, 0%Z); ("und"%u, 0%Z)]);
   ("Arab"%u, [("ar"%u, 350901502%Z); ("awa"%u, 25862924%Z); ("bhd"%u, 0%Z); ("chg"%u, 0%Z); ("ckb"%u, 11086549%Z); ("cpg"%u, 0%Z); ("dng"%u, 0%Z); ("doi"%u, 2652180%Z); ("hac"%u, 0%Z); ("inc-opa"%u, 0%Z); ("kfr"%u, 994568%Z); ("kk"%u, 13637392%Z); ("kmr"%u, 0%Z); ("kok"%u, 4906533%Z); ("ks"%u, 5723031%Z); ("ky"%u, 3338267%Z); ("lki"%u, 645417%Z); ("nog"%u, 0%Z); ("pa"%u, 201120217%Z); ("ur"%u, 170000000%Z); ("rif"%u, 3692411%Z); ("sdh"%u, 3142162%Z); ("shi"%u, 6187736%Z); ("tg"%u, 9644223%Z); ("tt"%u, 1984108%Z); ("tzm"%u, 3485047%Z); ("ug"%u, 8052967%Z); ("und"%u, 350901502%Z); ("xco"%u, 0%Z); ("xng"%u, 0%Z); ("xnr"%u, 2121744%Z)]);
   ("Armi"%u, [("arc"%u, 0%Z); ("und"%u, 0%Z); ("xco"%u, 0%Z)]);
   ("Armn"%u, [("axm"%u, 0%Z); ("hy"%u, 5317273%Z); ("kmr"%u, 0%Z); ("qwm"%u, 0%Z); ("rmi"%u, 0%Z); ("udi"%u, 0%Z); ("und"%u, 0%Z); ("xcl"%u, 0%Z)]);
   ("Avst"%u, [("ae"%u, 0%Z); ("pal"%u, 0%Z); ("und"%u, 0%Z)]);
   ("Bali"%u, [("sa"%u, 15913%Z); ("und"%u, 15913%Z)]);
   ("Beng"%u, [("as"%u, 17239170%Z); ("bn"%u, 267280377%Z); ("inc-mas"%u, 0%Z); ("inc-mbn"%u, 0%Z); ("inc-oas"%u, 0%Z); ("inc-ork"%u, 0%Z); ("pi"%u, 0%Z); ("rhg"%u, 0%Z); ("rkt"%u, 16274502%Z); ("sa"%u, 15913%Z); ("syl"%u, 8467932%Z); ("und"%u, 0%Z)]);
   ("Bhks"%u, [("sa"%u, 15913%Z); ("und"%u, 15913%Z)]);
   ("Brah"%u, [("inc-ash"%u, 0%Z); ("inc-mgd"%u, 0%Z); ("inc-pra"%u, 0%Z); ("inc-psc"%u, 0%Z); ("kho"%u, 0%Z); ("oty"%u, 0%Z); ("pi"%u, 0%Z); ("pka"%u, 0%Z); ("pmh"%u, 0%Z); ("psu"%u, 0%Z); ("sa"%u, 15913%Z); ("und"%u, 0%Z); ("xtq"%u, 0%Z)]);
   ("Brai"%u, [("ar"%u, 350901502%Z); ("el"%u, 12384863%Z); ("hy"%u, 5317273%Z); ("ko"%u, 78187423%Z); ("ru"%u, 195630064%Z); ("th"%u, 55181920%Z); ("und"%u, 350901502%Z)]);
   ("Cans"%u, [("cr"%u, 41464%Z); ("crj"%u, 7162%Z); ("crl"%u, 5277%Z); ("iu"%u, 31664%Z); ("nsk"%u, 1169%Z); ("und"%u, 0%Z)]);
   ("Cher"%u, [("chr"%u, 25613%Z); ("und"%u, 0%Z)]);
   ("Chrs"%u, [("und"%u, 0%Z); ("xco"%u, 0%Z)]);
   ("Copt"%u, [("cop"%u, 0%Z); ("und"%u, 0%Z)]);
   ("Cprt"%u, [("grc"%u, 0%Z); ("und"%u, 0%Z)]);
   ("Cyrl"%u, [("ab"%u, 91953%Z); ("abq"%u, 0%Z); ("ady"%u, 444583%Z); ("alt"%u, 19841%Z); ("atv"%u, 0%Z); ("av"%u, 552716%Z); ("ba"%u, 1842386%Z); ("bdk"%u, 0%Z); ("be"%u, 10064517%Z); ("bg"%u, 7878315%Z); ("bua"%u, 311788%Z); ("ce"%u, 935365%Z); ("chm"%u, 524371%Z); ("cv"%u, 1842386%Z); ("dar"%u, 368477%Z); ("ddo"%u, 0%Z); ("dng"%u, 0%Z); ("eve"%u, 0%Z); ("evn"%u, 0%Z); ("gin"%u, 0%Z); ("huz"%u, 0%Z); ("inh"%u, 226755%Z); ("jdt"%u, 0%Z); ("kap"%u, 0%Z); ("kbd"%u, 1070873%Z); ("kca"%u, 0%Z); ("khv"%u, 0%Z); ("kjh"%u, 0%Z); ("kjj"%u, 0%Z); ("kk"%u, 13637392%Z); ("kmr"%u, 0%Z); ("koi"%u, 63775%Z); ("kpv"%u, 0%Z); ("krc"%u, 240927%Z); ("kum"%u, 283444%Z); ("ky"%u, 3338267%Z); ("lbe"%u, 110543%Z); ("lez"%u, 255100%Z); ("mdf"%u, 297616%Z); ("mk"%u, 1608565%Z); ("mn"%u, 6572846%Z); ("mns"%u, 0%Z); ("mrj"%u, 29762%Z); ("myv"%u, 439338%Z); ("niv"%u, 0%Z); ("nog"%u, 0%Z); ("omk"%u, 0%Z); ("os"%u, 616987%Z); ("pnt"%u, 392463%Z); ("ru"%u, 195630064%Z); ("rue"%u, 527075%Z); ("sah"%u, 453510%Z); ("sgh"%u, 0%Z); ("sjd"%u, 0%Z); ("sva"%u, 0%Z); ("tab"%u, 0%Z); ("tg"%u, 9644223%Z); ("tt"%u, 1984108%Z); ("tyv"%u, 184239%Z); ("udi"%u, 0%Z); ("udm"%u, 538544%Z); ("ug"%u, 8052967%Z); ("uk"%u, 29273587%Z); ("und"%u, 195630064%Z); ("wbl"%u, 0%Z); ("xal"%u, 0%Z); ("yai"%u, 0%Z); ("ykg"%u, 0%Z); ("yux"%u, 0%Z)]);
   ("Cyrs"%u, [("cu"%u, 0%Z); ("orv"%u, 0%Z); ("und"%u, 0%Z); ("zle-ono"%u, 0%Z)]);
   ("Deva"%u, [("awa"%u, 25862924%Z); ("bfy"%u, 654424%Z); ("bfz"%u, 0%Z); ("bgc"%u, 15913080%Z); ("bhd"%u, 0%Z); ("bho"%u, 32934797%Z); ("bns"%u, 0%Z); ("bpx"%u, 0%Z); ("bra"%u, 54370%Z); ("brx"%u, 1856526%Z); ("cdh"%u, 0%Z); ("cdj"%u, 0%Z); ("doi"%u, 2652180%Z); ("dty"%u, 758198%Z); ("gbk"%u, 0%Z); ("gbm"%u, 3580443%Z); ("hi"%u, 546693674%Z); ("inc-ogu"%u, 0%Z); ("inc-ohi"%u, 0%Z); ("inc-pra"%u, 0%Z); ("inc-tak"%u, 0%Z); ("inc-vra"%u, 0%Z); ("kfs"%u, 0%Z); ("kfx"%u, 0%Z); ("kok"%u, 4906533%Z); ("ks"%u, 5723031%Z); ("mai"%u, 19249149%Z); ("mjl"%u, 0%Z); ("mr"%u, 92826300%Z); ("mtr"%u, 1286307%Z); ("mwr"%u, 15913080%Z); ("ne"%u, 20903374%Z); ("new"%u, 1000821%Z); ("omr"%u, 0%Z); ("pgd"%u, 0%Z); ("pgg"%u, 0%Z); ("pi"%u, 0%Z); ("pka"%u, 0%Z); ("pmh"%u, 0%Z); ("psu"%u, 0%Z); ("sa"%u, 15913%Z); ("saz"%u, 384566%Z); ("und"%u, 0%Z); ("unr"%u, 1252287%Z); ("xnr"%u, 2121744%Z); ("ybi"%u, 0%Z)]);
   ("Dogr"%u, [("doi"%u, 2652180%Z); ("und"%u, 2652180%Z)]);
   ("Ethi"%u, [("am"%u, 35728475%Z); ("byn"%u, 79056%Z); ("dlk"%u, 0%Z); ("gez"%u, 0%Z); ("har"%u, 0%Z); ("sem-cha"%u, 0%Z); ("ti"%u, 10145911%Z); ("tig"%u, 1094616%Z); ("und"%u, 0%Z)]);
   ("Geok"%u, [("ka"%u, 3543646%Z); ("und"%u, 3543646%Z)]);
   ("Geor"%u, [("ab"%u, 91953%Z); ("bbl"%u, 0%Z); ("ka"%u, 3543646%Z); ("lzz"%u, 22965%Z); ("oge"%u, 0%Z); ("os"%u, 616987%Z); ("sva"%u, 0%Z); ("udi"%u, 0%Z); ("und"%u, 0%Z); ("xmf"%u, 439670%Z)]);
   ("Glag"%u, [("cu"%u, 0%Z); ("und"%u, 0%Z); ("zle-ono"%u, 0%Z)]);
   ("Goth"%u, [("got"%u, 0%Z); ("und"%u, 0%Z)]);
   ("Gran"%u, [("sa"%u, 15913%Z); ("und"%u, 15913%Z)]);
   ("Grek"%u, [("cpg"%u, 0%Z); ("el"%u, 12384863%Z); ("grc"%u, 0%Z); ("ine-pae"%u, 0%Z); ("oos"%u, 0%Z); ("pnt"%u, 392463%Z); ("txh"%u, 0%Z); ("und"%u, 12384863%Z); ("xbc"%u, 0%Z); ("xmk"%u, 0%Z); ("xpg"%u, 0%Z)]);
   ("Gujr"%u, [("ae"%u, 0%Z); ("gu"%u, 59679028%Z); ("kfr"%u, 994568%Z); ("sa"%u, 15913%Z); ("und"%u, 59679028%Z); ("vgr"%u, 0%Z)]);
   ("Guru"%u, [("inc-opa"%u, 0%Z); ("pa"%u, 201120217%Z); ("sa"%u, 15913%Z); ("und"%u, 0%Z)]);
   ("Hani"%u, [("dng"%u, 0%Z); ("und"%u, 0%Z)]);
   ("Hatr"%u, [("arc"%u, 0%Z); ("und"%u, 0%Z)]);
   ("Hebr"%u, [("ar"%u, 350901502%Z); ("jdt"%u, 0%Z); ("ka"%u, 3543646%Z); ("und"%u, 350901502%Z); ("yi"%u, 1046399%Z)]);
   ("Ital"%u, [("ett"%u, 0%Z); ("itc-ola"%u, 0%Z); ("nrp"%u, 0%Z); ("osc"%u, 0%Z); ("spx"%u, 0%Z); ("und"%u, 0%Z); ("xcc"%u, 0%Z); ("xfa"%u, 0%Z); ("xle"%u, 0%Z); ("xlp"%u, 0%Z); ("xrr"%u, 0%Z); ("xum"%u, 0%Z); ("xve"%u, 0%Z)]);
   ("Java"%u, [("jv"%u, 91180665%Z); ("kaw"%u, 0%Z); ("sa"%u, 15913%Z); ("und"%u, 91180665%Z)]);
   ("Kali"%u, [("kyu"%u, 0%Z); ("und"%u, 0%Z)]);
   ("Kham"%u, [("und"%u, 0%Z)]);
   ("Khar"%u, [("inc-ash"%u, 0%Z); ("kho"%u, 0%Z); ("pgd"%u, 0%Z); ("pra-niy"%u, 0%Z); ("sa"%u, 15913%Z); ("und"%u, 0%Z); ("xtq"%u, 0%Z)]);
   ("Khmr"%u, [("km"%u, 15065030%Z); ("pi"%u, 0%Z); ("sa"%u, 15913%Z); ("und"%u, 15065030%Z)]);
   ("Knda"%u, [("dra-mkn"%u, 0%Z); ("dra-okn"%u, 0%Z); ("inc-pra"%u, 0%Z); ("kn"%u, 49065330%Z); ("kok"%u, 4906533%Z); ("sa"%u, 15913%Z); ("tcy"%u, 1989135%Z); ("und"%u, 49065330%Z)]);
   ("Kore"%u, [("ko"%u, 78187423%Z); ("und"%u, 78187423%Z)]);
   ("Kthi"%u, [("awa"%u, 25862924%Z); ("bho"%u, 32934797%Z); ("hi"%u, 546693674%Z); ("mai"%u, 19249149%Z); ("und"%u, 546693674%Z)]);
   ("Lana"%u, [("pi"%u, 0%Z); ("sa"%u, 15913%Z); ("und"%u, 15913%Z)]);
   ("Laoo"%u, [("lo"%u, 5138706%Z); ("pi"%u, 0%Z); ("sa"%u, 15913%Z); ("und"%u, 5138706%Z)]);
   ("Latn"%u, [("und"%u, 0%Z)]);
   ("Lepc"%u, [("lep"%u, 79743%Z); ("und"%u, 79743%Z)]);
   ("Limb"%u, [("lif"%u, 368085%Z); ("und"%u, 0%Z)]);
   ("Linb"%u, [("gmy"%u, 0%Z); ("und"%u, 0%Z)]);
   ("Lyci"%u, [("und"%u, 0%Z); ("xlc"%u, 0%Z)]);
   ("Lydi"%u, [("und"%u, 0%Z); ("xld"%u, 0%Z)]);
   ("Mahj"%u, [("mwr"%u, 15913080%Z); ("und"%u, 15913080%Z)]);
   ("Mand"%u, [("arc"%u, 0%Z); ("und"%u, 0%Z)]);
   ("Mani"%u, [("pal"%u, 0%Z); ("sog"%u, 0%Z); ("und"%u, 0%Z); ("xbc"%u, 0%Z); ("xpr"%u, 0%Z)]);
   ("Merc"%u, [("und"%u, 0%Z); ("xmr"%u, 0%Z)]);
   ("Mero"%u, [("und"%u, 0%Z); ("xmr"%u, 0%Z)]);
   ("Mlym"%u, [("kok"%u, 4906533%Z); ("ml"%u, 43280500%Z); ("sa"%u, 15913%Z); ("und"%u, 43280500%Z)]);
   ("Modi"%u, [("mr"%u, 92826300%Z); ("omr"%u, 0%Z); ("sa"%u, 15913%Z); ("und"%u, 0%Z)]);
   ("Mong"%u, [("bua"%u, 311788%Z); ("cmg"%u, 0%Z); ("mn"%u, 6572846%Z); ("mnc"%u, 0%Z); ("und"%u, 6572846%Z); ("xng"%u, 0%Z); ("xwo"%u, 0%Z)]);
   ("Mymr"%u, [("ksw"%u, 0%Z); ("my"%u, 36559231%Z); ("pi"%u, 0%Z); ("rhg"%u, 0%Z); ("sa"%u, 15913%Z); ("shn"%u, 3687984%Z); ("und"%u, 36559231%Z)]);
   ("Narb"%u, [("sem-dad"%u, 0%Z); ("sem-dum"%u, 0%Z); ("sem-has"%u, 0%Z); ("sem-his"%u, 0%Z); ("sem-saf"%u, 0%Z); ("sem-tay"%u, 0%Z); ("sem-tha"%u, 0%Z); ("und"%u, 0%Z)]);
   ("Nbat"%u, [("arc"%u, 0%Z); ("und"%u, 0%Z)]);
   ("Newa"%u, [("bn"%u, 267280377%Z); ("hi"%u, 546693674%Z); ("mai"%u, 19249149%Z); ("ne"%u, 20903374%Z); ("new"%u, 1000821%Z); ("sa"%u, 15913%Z); ("und"%u, 0%Z)]);
   ("Ogam"%u, [("pgl"%u, 0%Z); ("und"%u, 0%Z)]);
   ("Olck"%u, [("sat"%u, 7293495%Z); ("und"%u, 0%Z)]);
   ("Orkh"%u, [("otk"%u, 0%Z); ("und"%u, 0%Z)]);
   ("Orya"%u, [("or"%u, 42434880%Z); ("sa"%u, 15913%Z); ("spv"%u, 0%Z); ("und"%u, 42434880%Z)]);
   ("Palm"%u, [("arc"%u, 0%Z); ("und"%u, 0%Z)]);
   ("Perm"%u, [("koi"%u, 63775%Z); ("und"%u, 63775%Z)]);
   ("Phag"%u, [("und"%u, 0%Z); ("xng"%u, 0%Z)]);
   ("Phli"%u, [("pal"%u, 0%Z); ("und"%u, 0%Z)]);
   ("Phlv"%u, [("pal"%u, 0%Z); ("und"%u, 0%Z); ("xco"%u, 0%Z)]);
   ("Phnx"%u, [("arc"%u, 0%Z); ("obm"%u, 0%Z); ("phn"%u, 0%Z); ("sem-amm"%u, 0%Z); ("und"%u, 0%Z); ("xdm"%u, 0%Z); ("xpu"%u, 0%Z)]);
   ("Prti"%u, [("und"%u, 0%Z); ("xpr"%u, 0%Z)]);
   ("Rohg"%u, [("rhg"%u, 0%Z); ("und"%u, 0%Z)]);
   ("Runr"%u, [("ang"%u, 0%Z); ("gmq-pro"%u, 0%Z); ("got"%u, 0%Z); ("non"%u, 0%Z); ("und"%u, 0%Z)]);
   ("Samr"%u, [("arc"%u, 0%Z); ("sam"%u, 0%Z); ("und"%u, 0%Z)]);
   ("Sarb"%u, [("inm"%u, 0%Z); ("sem-srb"%u, 0%Z); ("und"%u, 0%Z); ("xha"%u, 0%Z); ("xhd"%u, 0%Z); ("xqt"%u, 0%Z); ("xsa"%u, 0%Z)]);
   ("Saur"%u, [("sa"%u, 15913%Z); ("saz"%u, 384566%Z); ("und"%u, 384566%Z)]);
   ("Shrd"%u, [("ks"%u, 5723031%Z); ("sa"%u, 15913%Z); ("und"%u, 0%Z)]);
   ("Sidd"%u, [("sa"%u, 15913%Z); ("und"%u, 15913%Z)]);
   ("Sind"%u, [("und"%u, 0%Z)]);
   ("Sinh"%u, [("pi"%u, 0%Z); ("sa"%u, 15913%Z); ("si"%u, 15564656%Z); ("und"%u, 15564656%Z)]);
   ("Sogd"%u, [("sog"%u, 0%Z); ("und"%u, 0%Z); ("xco"%u, 0%Z)]);
   ("Sogo"%u, [("sog"%u, 0%Z); ("und"%u, 0%Z)]);
   ("Soyo"%u, [("mn"%u, 6572846%Z); ("und"%u, 6572846%Z)]);
   ("Sund"%u, [("su"%u, 32043120%Z); ("und"%u, 32043120%Z)]);
   ("Sylo"%u, [("syl"%u, 8467932%Z); ("und"%u, 8467932%Z)]);
   ("Takr"%u, [("cdh"%u, 0%Z); ("doi"%u, 2652180%Z); ("gbk"%u, 0%Z); ("kfs"%u, 0%Z); ("mjl"%u, 0%Z); ("pgg"%u, 0%Z); ("und"%u, 2652180%Z); ("xnr"%u, 2121744%Z)]);
   ("Tale"%u, [("tdd"%u, 264864%Z); ("und"%u, 0%Z)]);
   ("Talu"%u, [("khb"%u, 264864%Z); ("und"%u, 0%Z)]);
   ("Taml"%u, [("sa"%u, 15913%Z); ("saz"%u, 384566%Z); ("ta"%u, 83327103%Z); ("und"%u, 83327103%Z)]);
   ("Tavt"%u, [("und"%u, 0%Z)]);
   ("Telu"%u, [("sa"%u, 15913%Z); ("te"%u, 95478480%Z); ("und"%u, 95478480%Z)]);
   ("Tfng"%u, [("rif"%u, 3692411%Z); ("shi"%u, 6187736%Z); ("tzm"%u, 3485047%Z); ("und"%u, 0%Z); ("zgh"%u, 7823574%Z)]);
   ("Thaa"%u, [("dv"%u, 372368%Z); ("und"%u, 372368%Z)]);
   ("Thai"%u, [("pi"%u, 0%Z); ("sa"%u, 15913%Z); ("th"%u, 55181920%Z); ("und"%u, 55181920%Z)]);
   ("Tibt"%u, [("bo"%u, 3006697%Z); ("dz"%u, 370341%Z); ("lbj"%u, 0%Z); ("sa"%u, 15913%Z); ("sip"%u, 0%Z); ("und"%u, 3006697%Z)]);
   ("Tirh"%u, [("mai"%u, 19249149%Z); ("sa"%u, 15913%Z); ("und"%u, 0%Z)]);
   ("Ugar"%u, [("uga"%u, 0%Z); ("und"%u, 0%Z)]);
   ("Vaii"%u, [("und"%u, 0%Z); ("vai"%u, 131906%Z)]);
   ("Xpeo"%u, [("peo"%u, 0%Z); ("und"%u, 0%Z)]);
   ("Yiii"%u, [("ii"%u, 8364120%Z); ("und"%u, 8364120%Z)]);
   ("Zanb"%u, [("mn"%u, 6572846%Z); ("und"%u, 6572846%Z)])].
