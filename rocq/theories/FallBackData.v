(** * Fall-back characters (GENERATED by tools/gen_tables.py; do not edit).

    The dictionaries of /repo/aksharamukha/FallBack.py, in their order.  A
    value is either the character itself or a list such as [4, "x"]. *)
From Coq Require Import List NArith ZArith.
From Verif Require Import PyStr.
Import ListNotations.

Inductive fbval :=
| FChar (s : str)
| FBase (i : Z) (rest : list str).

Definition fbdict := list (str * list (str * fbval)).

(** aksharamukha/FallBack.py:13-297 *)
Definition FB_VowelMap : fbdict :=
  [("halfu"%u, [("Malayalam"%u, FChar "ഉ്"%u); ("Devanagari"%u, FChar "ॶ"%u); ("Sharada"%u, FChar "𑆃𑇋𑆶"%u); ("Tamil"%u, FChar "உ்"%u); ("IAST"%u, FChar "ŭ"%u); ("ISO"%u, FChar "ŭ"%u); ("IPA"%u, FChar "ʉ"%u); ("OthersRev"%u, FBase (4)%Z ["ʼ"%u]); ("OthersNonRev"%u, FBase (4)%Z ["˂"%u])]);
   ("halfuu"%u, [("Malayalam"%u, FChar "ഊ്"%u); ("Devanagari"%u, FChar "ॷ"%u); ("Sharada"%u, FChar "𑆃𑇋𑆷"%u); ("Tamil"%u, FChar "ஊ்"%u); ("IAST"%u, FChar "ŭ̄"%u); ("ISO"%u, FChar "ŭ̄"%u); ("IPA"%u, FChar "ʉː"%u); ("OthersRev"%u, FBase (5)%Z ["ʼ"%u]); ("OthersNonRev"%u, FBase (5)%Z ["˂"%u])]);
   ("oe"%u, [("Devanagari"%u, FChar "ॳ"%u); ("Sharada"%u, FChar "𑆃𑇋"%u); ("IAST"%u, FChar "ö"%u); ("ISO"%u, FChar "ö"%u); ("IPA"%u, FChar "ʉː"%u); ("OthersRev"%u, FBase (1)%Z ["ʼʼ"%u]); ("OthersNonRev"%u, FBase (1)%Z ["˂"%u])]);
   ("oee"%u, [("Devanagari"%u, FChar "ॴ"%u); ("Sharada"%u, FChar "𑆃𑇋𑆳"%u); ("IAST"%u, FChar "ȫ"%u); ("ISO"%u, FChar "ȫ"%u); ("IPA"%u, FChar "ʉː"%u); ("OthersRev"%u, FBase (1)%Z ["ʼʼʼ"%u]); ("OthersNonRev"%u, FBase (1)%Z ["˂"%u])]);
   ("ShanLoCesup"%u, [("ShanLoC"%u, FChar "ဢဵ"%u); ("Shan"%u, FChar "ဢဵ"%u); ("ShanLoCRomanLoC"%u, FChar "eʽ"%u); ("OthersRev"%u, FBase (10)%Z ["˂"%u]); ("OthersNonRev"%u, FBase (10)%Z ["˂"%u])]);
   ("ShanLoCui"%u, [("ShanLoC"%u, FChar "ဢို"%u); ("Shan"%u, FChar "ဢို"%u); ("ShanLoCRomanLoC"%u, FChar "ui"%u); ("OthersRev"%u, FBase (4)%Z ["˂"%u]); ("OthersNonRev"%u, FBase (4)%Z ["˂"%u])]);
   ("ShanLoCuui"%u, [("ShanLoC"%u, FChar "ဢိူ"%u); ("Shan"%u, FChar "ဢိူ"%u); ("ShanLoCRomanLoC"%u, FChar "ūi"%u); ("OthersRev"%u, FBase (5)%Z ["˂"%u]); ("OthersNonRev"%u, FBase (5)%Z ["˂"%u])]);
   ("ShanLoCuuiv"%u, [("ShanLoC"%u, FChar "ဢိူဝ်"%u); ("Shan"%u, FChar "ဢိူဝ်"%u); ("ShanLoCRomanLoC"%u, FChar "ūiv"%u); ("OthersRev"%u, FBase (5)%Z ["˂"%u]); ("OthersNonRev"%u, FBase (5)%Z ["˂"%u])]);
   ("ShanLoCaai"%u, [("ShanLoC"%u, FChar "ဢၢႆ"%u); ("Shan"%u, FChar "ဢၢႆ"%u); ("ShanLoCRomanLoC"%u, FChar "āi"%u); ("OthersRev"%u, FBase (11)%Z ["˂"%u]); ("OthersNonRev"%u, FBase (11)%Z ["˂"%u])]);
   ("ShanLoCaoi"%u, [("ShanLoC"%u, FChar "ဢွႆ"%u); ("Shan"%u, FChar "ဢွႆ"%u); ("ThamLoC"%u, FChar "ᩋ᩿ᩅᩭ"%u); ("ShanLoCRomanLoC"%u, FChar "oi"%u); ("ThamLoCRomanLoC"%u, FChar "oi"%u); ("OthersRev"%u, FBase (11)%Z ["˂"%u]); ("OthersNonRev"%u, FBase (11)%Z ["˂"%u])]);
   ("ShanLoCoalt1"%u, [("ShanLoC"%u, FChar "ဢေႃ်"%u); ("Shan"%u, FChar "ဢေႃ်"%u); ("ShanLoCRomanLoC"%u, FChar "ò"%u); ("OthersRev"%u, FBase (12)%Z ["˂"%u]); ("OthersNonRev"%u, FBase (12)%Z ["˂"%u])]);
   ("ShanLoCoalt"%u, [("ShanLoC"%u, FChar "ဢူဝ်"%u); ("Shan"%u, FChar "ဢူဝ်"%u); ("ShanLoCRomanLoC"%u, FChar "ō"%u); ("OthersRev"%u, FBase (12)%Z ["˂"%u]); ("OthersNonRev"%u, FBase (12)%Z ["˂"%u])]);
   ("ShanLoCaialt"%u, [("ShanLoC"%u, FChar "ဢͮ"%u); ("Shan"%u, FChar "ဢͮ"%u); ("ShanLoCRomanLoC"%u, FChar "ái"%u); ("OthersRev"%u, FBase (11)%Z ["˂"%u]); ("OthersNonRev"%u, FBase (11)%Z ["˂"%u])]);
   ("Khmery2"%u, [("KhmerLoC"%u, FChar "ឪ"%u); ("KhmerLoCRomanLoC"%u, FChar "ýu"%u); ("OthersRev"%u, FBase (4)%Z ["˂"%u]); ("OthersNonRev"%u, FBase (4)%Z ["˂"%u])]);
   ("Khmery"%u, [("KhmerLoC"%u, FChar "អិំʲ"%u); ("KhmerLoCRomanLoC"%u, FChar "ẏ"%u); ("OthersRev"%u, FBase (2)%Z ["˂"%u]); ("OthersNonRev"%u, FBase (2)%Z ["˂"%u])]);
   ("Khmeryy"%u, [("KhmerLoC"%u, FChar "អឺʲ"%u); ("KhmerLoCRomanLoC"%u, FChar "ȳ"%u); ("OthersRev"%u, FBase (3)%Z ["˂"%u]); ("OthersNonRev"%u, FBase (3)%Z ["˂"%u])]);
   ("Khmerua"%u, [("KhmerLoC"%u, FChar "អួʲ"%u); ("KhmerLoCRomanLoC"%u, FChar "ua"%u); ("OthersRev"%u, FBase (4)%Z ["˂"%u]); ("OthersNonRev"%u, FBase (4)%Z ["˂"%u])]);
   ("Khmeroe"%u, [("KhmerLoC"%u, FChar "អើʲ"%u); ("KhmerLoCRomanLoC"%u, FChar "oe"%u); ("OthersRev"%u, FBase (12)%Z ["˂"%u]); ("OthersNonRev"%u, FBase (12)%Z ["˂"%u])]);
   ("Khmeryye"%u, [("KhmerLoC"%u, FChar "អឿʲ"%u); ("KhmerLoCRomanLoC"%u, FChar "ẏa"%u); ("OthersRev"%u, FBase (0)%Z ["˂"%u]); ("OthersNonRev"%u, FBase (0)%Z ["˂"%u])]);
   ("Khmeria"%u, [("KhmerLoC"%u, FChar "អៀʲ"%u); ("KhmerLoCRomanLoC"%u, FChar "ia"%u); ("OthersRev"%u, FBase (0)%Z ["˂"%u]); ("OthersNonRev"%u, FBase (0)%Z ["˂"%u])]);
   ("Khmershortaa"%u, [("KhmerLoC"%u, FChar "អា់ʲ"%u); ("KhmerLoCRomanLoC"%u, FChar "â"%u); ("OthersRev"%u, FBase (1)%Z ["˂"%u]); ("OthersNonRev"%u, FBase (1)%Z ["˂"%u])]);
   ("Thamcloseda"%u, [("ThamLoC"%u, FChar "ᩋᩢ"%u); ("TaiTham"%u, FChar "ᩋᩢ"%u); ("LaoTham"%u, FChar "ᩋᩢ"%u); ("LueTham"%u, FChar "ᩋᩢ"%u); ("KhuenTham"%u, FChar "ᩋᩢ"%u); ("ThamLoCRomanLoC"%u, FChar "aʽ"%u); ("OthersRev"%u, FBase (0)%Z ["˂"%u]); ("OthersNonRev"%u, FBase (0)%Z ["˂"%u])]);
   ("Thamclosede"%u, [("ThamLoC"%u, FChar "ᩋ᩿ᨿ"%u); ("TaiTham"%u, FChar "ᩋ᩿ᨿ"%u); ("LueTham"%u, FChar "ᩋ᩿ᨿ"%u); ("KhuenTham"%u, FChar "ᩋ᩿ᨿ"%u); ("LaoTham"%u, FChar "ᩋ᩿ᨿ"%u); ("ThamLoCRomanLoC"%u, FChar "è"%u); ("OthersRev"%u, FBase (0)%Z ["˂"%u]); ("OthersNonRev"%u, FBase (0)%Z ["˂"%u])]);
   ("Thamclosedau"%u, [("ThamLoC"%u, FChar "ᩋ᩿ᩅ"%u); ("TaiTham"%u, FChar "ᩋ᩿ᩅ"%u); ("LaoTham"%u, FChar "ᩋ᩿ᩅ"%u); ("LueTham"%u, FChar "ᩋ᩿ᩅ"%u); ("KhuenTham"%u, FChar "ᩋ᩿ᩅ"%u); ("ThamLoCRomanLoC"%u, FChar "òʽ"%u); ("OthersRev"%u, FBase (13)%Z ["˂"%u]); ("OthersNonRev"%u, FBase (13)%Z ["˂"%u])]);
   ("Thamopeno2h"%u, [("ThamLoC"%u, FChar "ᩋᩰᩬᩡ"%u); ("TaiTham"%u, FChar "ᩋᩰᩬᩡ"%u); ("LueTham"%u, FChar "ᩋᩰᩬᩡ"%u); ("KhuenTham"%u, FChar "ᩋᩰᩬᩡ"%u); ("LaoTham"%u, FChar "ᩋᩰᩬᩡ"%u); ("ThamLoCRomanLoC"%u, FChar "ǫḥ"%u); ("OthersRev"%u, FBase (12)%Z ["˂"%u]); ("OthersNonRev"%u, FBase (12)%Z ["˂"%u])]);
   ("Thamclosedo2h"%u, [("ThamLoC"%u, FChar "ᩋᩫ"%u); ("TaiTham"%u, FChar "ᩋᩫ"%u); ("LaoTham"%u, FChar "ᩋᩫ"%u); ("LueTham"%u, FChar "ᩋᩫ"%u); ("KhuenTham"%u, FChar "ᩋᩫ"%u); ("ThamLoCRomanLoC"%u, FChar "ǫḥʽ"%u); ("OthersRev"%u, FBase (12)%Z ["˂"%u]); ("OthersNonRev"%u, FBase (12)%Z ["˂"%u])]);
   ("Thamohook"%u, [("ThamLoC"%u, FChar "ᩋᩳ"%u); ("LaoTham"%u, FChar "ᩋᩳ"%u); ("TaiTham"%u, FChar "ᩋᩳ"%u); ("LueTham"%u, FChar "ᩋᩳ"%u); ("KhuenTham"%u, FChar "ᩋᩳ"%u); ("ThamLoCRomanLoC"%u, FChar "ǫ"%u); ("OthersRev"%u, FBase (12)%Z ["˂"%u]); ("OthersNonRev"%u, FBase (12)%Z ["˂"%u])]);
   ("Thamohookclosed"%u, [("ThamLoC"%u, FChar "ᩋᩬ"%u); ("LaoTham"%u, FChar "ᩋᩬ"%u); ("TaiTham"%u, FChar "ᩋᩬ"%u); ("LueTham"%u, FChar "ᩋᩬ"%u); ("KhuenTham"%u, FChar "ᩋᩬ"%u); ("ThamLoCRomanLoC"%u, FChar "ǫʽ"%u); ("OthersRev"%u, FBase (3)%Z ["˂"%u]); ("OthersNonRev"%u, FBase (3)%Z ["˂"%u])]);
   ("Thamouhookk"%u, [("ThamLoC"%u, FChar "ᩋᩧ"%u); ("TaiTham"%u, FChar "ᩋᩧ"%u); ("LaoTham"%u, FChar "ᩋᩧ"%u); ("LueTham"%u, FChar "ᩋᩧ"%u); ("KhuenTham"%u, FChar "ᩋᩧ"%u); ("ThamLoCRomanLoC"%u, FChar "ư"%u); ("OthersRev"%u, FBase (4)%Z ["˂"%u]); ("OthersNonRev"%u, FBase (4)%Z ["˂"%u])]);
   ("Thamuuhook"%u, [("ThamLoC"%u, FChar "ᩋᩨ"%u); ("TaiTham"%u, FChar "ᩋᩨ"%u); ("LaoTham"%u, FChar "ᩋᩨ"%u); ("LueTham"%u, FChar "ᩋᩨ"%u); ("KhuenTham"%u, FChar "ᩋᩨ"%u); ("ThamLoCRomanLoC"%u, FChar "ư̄"%u); ("OthersRev"%u, FBase (5)%Z ["˂"%u]); ("OthersNonRev"%u, FBase (5)%Z ["˂"%u])]);
   ("Thamaiy"%u, [("ThamLoC"%u, FChar "ᩋᩱ᩿ᨿ"%u); ("TaiTham"%u, FChar "ᩋᩱ᩿ᨿ"%u); ("LueTham"%u, FChar "ᩋᩱ᩿ᨿ"%u); ("KhuenTham"%u, FChar "ᩋᩱ᩿ᨿ"%u); ("LaoTham"%u, FChar "ᩋᩱ᩿ᨿ"%u); ("ThamLoCRomanLoC"%u, FChar "aiy᩺"%u); ("OthersRev"%u, FBase (11)%Z ["˂"%u]); ("OthersNonRev"%u, FBase (11)%Z ["˂"%u])]);
   ("Thamohohooki"%u, [("ThamLoC"%u, FChar "ᩋᩭ"%u); ("TaiTham"%u, FChar "ᩋᩭ"%u); ("LaoTham"%u, FChar "ᩋᩭ"%u); ("LueTham"%u, FChar "ᩋᩭ"%u); ("KhuenTham"%u, FChar "ᩋᩭ"%u); ("ThamLoCRomanLoC"%u, FChar "ǫi"%u); ("OthersRev"%u, FBase (11)%Z ["˂"%u]); ("OthersNonRev"%u, FBase (11)%Z ["˂"%u])]);
   ("Thameo2"%u, [("ThamLoC"%u, FChar "ᩋᩴ᩿ᨿ"%u); ("TaiTham"%u, FChar "ᩋᩴ᩿ᨿ"%u); ("LaoTham"%u, FChar "ᩋᩴ᩿ᨿ"%u); ("LueTham"%u, FChar "ᩋᩴ᩿ᨿ"%u); ("KhuenTham"%u, FChar "ᩋᩴ᩿ᨿ"%u); ("ThamLoCRomanLoC"%u, FChar "eo"%u); ("OthersRev"%u, FBase (12)%Z ["˂"%u]); ("OthersNonRev"%u, FBase (12)%Z ["˂"%u])]);
   ("Thamohao"%u, [("ThamLoC"%u, FChar "ᩋᩮᩢᩣ"%u); ("TaiTham"%u, FChar "ᩋᩮᩢᩣ"%u); ("LaoTham"%u, FChar "ᩋᩮᩢᩣ"%u); ("KhuenTham"%u, FChar "ᩋᩮᩢᩣ"%u); ("LueTham"%u, FChar "ᩋᩮᩢᩣ"%u); ("ThamLoCRomanLoC"%u, FChar "ao"%u); ("OthersRev"%u, FBase (13)%Z ["˂"%u]); ("OthersNonRev"%u, FBase (13)%Z ["˂"%u])])].

(** aksharamukha/FallBack.py:299-577 *)
Definition FB_VowelSignMap : fbdict :=
  [("halfu"%u, [("Malayalam"%u, FChar [0xD41; 0xD4D]%N); ("Devanagari"%u, FChar [0x956]%N); ("Sharada"%u, FChar [0x111CB; 0x111B6]%N); ("Tamil"%u, FChar [0xBC1; 0xBCD]%N); ("IAST"%u, FChar "ŭ"%u); ("ISO"%u, FChar "ŭ"%u); ("IPA"%u, FChar "ʉː"%u); ("OthersRev"%u, FBase (3)%Z ["ʼ"%u]); ("OthersNonRev"%u, FBase (3)%Z ["˂"%u])]);
   ("halfuu"%u, [("Malayalam"%u, FChar [0xD42; 0xD4D]%N); ("Devanagari"%u, FChar [0x957]%N); ("Sharada"%u, FChar [0x111CB; 0x111B7]%N); ("Tamil"%u, FChar [0xBC2; 0xBCD]%N); ("IAST"%u, FChar "ŭ̄"%u); ("ISO"%u, FChar "ŭ̄"%u); ("IPA"%u, FChar "ʉ"%u); ("OthersRev"%u, FBase (4)%Z ["ʼ"%u]); ("OthersNonRev"%u, FBase (4)%Z ["˂"%u])]);
   ("oe"%u, [("Devanagari"%u, FChar [0x93A]%N); ("Sharada"%u, FChar [0x111CB]%N); ("IAST"%u, FChar "ö"%u); ("ISO"%u, FChar "ö"%u); ("IPA"%u, FChar "ʉː"%u); ("OthersRev"%u, FBase (0)%Z ["ʼʼ"%u]); ("OthersNonRev"%u, FBase (0)%Z ["˂"%u])]);
   ("oee"%u, [("Devanagari"%u, FChar [0x93B]%N); ("Sharada"%u, FChar [0x111CB; 0x111B3]%N); ("IAST"%u, FChar "ȫ"%u); ("ISO"%u, FChar "ȫ"%u); ("IPA"%u, FChar "ʉː"%u); ("OthersRev"%u, FBase (0)%Z ["ʼʼʼ"%u]); ("OthersNonRev"%u, FBase (0)%Z ["˂"%u])]);
   ("ShanLoCesup"%u, [("ShanLoC"%u, FChar [0x1035]%N); ("Shan"%u, FChar [0x1035]%N); ("ShanLoCRomanLoC"%u, FChar "eʽ"%u); ("OthersRev"%u, FBase (9)%Z ["˂"%u]); ("OthersNonRev"%u, FBase (9)%Z ["˂"%u])]);
   ("ShanLoCui"%u, [("ShanLoC"%u, FChar [0x102D; 0x102F]%N); ("Shan"%u, FChar [0x102D; 0x102F]%N); ("ShanLoCRomanLoC"%u, FChar "ui"%u); ("OthersRev"%u, FBase (3)%Z ["˂"%u]); ("OthersNonRev"%u, FBase (3)%Z ["˂"%u])]);
   ("ShanLoCuui"%u, [("ShanLoC"%u, FChar [0x102D; 0x1030]%N); ("Shan"%u, FChar [0x102D; 0x1030]%N); ("ShanLoCRomanLoC"%u, FChar "ūi"%u); ("OthersRev"%u, FBase (4)%Z ["˂"%u]); ("OthersNonRev"%u, FBase (4)%Z ["˂"%u])]);
   ("ShanLoCuuiv"%u, [("ShanLoC"%u, FChar [0x102D; 0x1030; 0x101D; 0x103A]%N); ("Shan"%u, FChar [0x102D; 0x1030; 0x101D; 0x103A]%N); ("ShanLoCRomanLoC"%u, FChar "ūiv"%u); ("OthersRev"%u, FBase (4)%Z ["˂"%u]); ("OthersNonRev"%u, FBase (4)%Z ["˂"%u])]);
   ("ShanLoCaai"%u, [("ShanLoC"%u, FChar [0x1062; 0x1086]%N); ("Shan"%u, FChar [0x1062; 0x1086]%N); ("ShanLoCRomanLoC"%u, FChar "āi"%u); ("OthersRev"%u, FBase (10)%Z ["˂"%u]); ("OthersNonRev"%u, FBase (10)%Z ["˂"%u])]);
   ("ShanLoCaoi"%u, [("ShanLoC"%u, FChar [0x103D; 0x1086]%N); ("Shan"%u, FChar [0x103D; 0x1086]%N); ("ThamLoC"%u, FChar [0x1A7F; 0x1A45; 0x1A6D]%N); ("ShanLoCRomanLoC"%u, FChar "oi"%u); ("ThamLoCRomanLoC"%u, FChar "oi"%u); ("OthersRev"%u, FBase (10)%Z ["˂"%u]); ("OthersNonRev"%u, FBase (10)%Z ["˂"%u])]);
   ("ShanLoCoalt1"%u, [("ShanLoC"%u, FChar [0x1031; 0x1083; 0x103A]%N); ("Shan"%u, FChar [0x1031; 0x1083; 0x103A]%N); ("ShanLoCRomanLoC"%u, FChar "ò"%u); ("OthersRev"%u, FBase (11)%Z ["˂"%u]); ("OthersNonRev"%u, FBase (11)%Z ["˂"%u])]);
   ("ShanLoCoalt"%u, [("ShanLoC"%u, FChar [0x1030; 0x101D; 0x103A]%N); ("Shan"%u, FChar [0x1030; 0x101D; 0x103A]%N); ("ShanLoCRomanLoC"%u, FChar "ō"%u); ("OthersRev"%u, FBase (11)%Z ["˂"%u]); ("OthersNonRev"%u, FBase (11)%Z ["˂"%u])]);
   ("ShanLoCaialt"%u, [("ShanLoC"%u, FChar [0x36E]%N); ("Shan"%u, FChar [0x36E]%N); ("ShanLoCRomanLoC"%u, FChar "ái"%u); ("OthersRev"%u, FBase (10)%Z ["˂"%u]); ("OthersNonRev"%u, FBase (10)%Z ["˂"%u])]);
   ("Khmery2"%u, [("KhmerLoC"%u, FChar [0x17D2; 0x17AA]%N); ("KhmerLoCRomanLoC"%u, FChar "ýu"%u); ("OthersRev"%u, FBase (4)%Z ["˂"%u]); ("OthersNonRev"%u, FBase (4)%Z ["˂"%u])]);
   ("Khmery"%u, [("KhmerLoC"%u, FChar [0x17B7; 0x17C6; 0x2BD]%N); ("KhmerLoCRomanLoC"%u, FChar "ẏ"%u); ("OthersRev"%u, FBase (1)%Z ["˂"%u]); ("OthersNonRev"%u, FBase (1)%Z ["˂"%u])]);
   ("Khmeryy"%u, [("KhmerLoC"%u, FChar [0x17BA]%N); ("KhmerLoCRomanLoC"%u, FChar "ȳ"%u); ("OthersRev"%u, FBase (2)%Z ["˂"%u]); ("OthersNonRev"%u, FBase (2)%Z ["˂"%u])]);
   ("Khmerua"%u, [("KhmerLoC"%u, FChar [0x17BD]%N); ("KhmerLoCRomanLoC"%u, FChar "ua"%u); ("OthersRev"%u, FBase (3)%Z ["˂"%u]); ("OthersNonRev"%u, FBase (3)%Z ["˂"%u])]);
   ("Khmeroe"%u, [("KhmerLoC"%u, FChar [0x17BE]%N); ("KhmerLoCRomanLoC"%u, FChar "oe"%u); ("OthersRev"%u, FBase (11)%Z ["˂"%u]); ("OthersNonRev"%u, FBase (11)%Z ["˂"%u])]);
   ("Khmeryye"%u, [("KhmerLoC"%u, FChar [0x17BF]%N); ("KhmerLoCRomanLoC"%u, FChar "ẏa"%u); ("OthersRev"%u, FBase (-1)%Z ["˂"%u]); ("OthersNonRev"%u, FBase (-1)%Z ["˂"%u])]);
   ("Khmeria"%u, [("KhmerLoC"%u, FChar [0x17C0]%N); ("KhmerLoCRomanLoC"%u, FChar "ia"%u); ("OthersRev"%u, FBase (-1)%Z ["˂"%u]); ("OthersNonRev"%u, FBase (-1)%Z ["˂"%u])]);
   ("Khmershortaa"%u, [("KhmerLoC"%u, FChar [0x17B6; 0x17CB]%N); ("KhmerLoCRomanLoC"%u, FChar "â"%u); ("OthersRev"%u, FBase (0)%Z ["˂"%u]); ("OthersNonRev"%u, FBase (0)%Z ["˂"%u])]);
   ("Thamcloseda"%u, [("ThamLoC"%u, FChar [0x1A62]%N); ("TaiTham"%u, FChar [0x1A62]%N); ("LaoTham"%u, FChar [0x1A62]%N); ("KhuenTham"%u, FChar [0x1A62]%N); ("LueTham"%u, FChar [0x1A62]%N); ("ThamLoCRomanLoC"%u, FChar "aʽ"%u); ("OthersRev"%u, FBase (-1)%Z ["˂"%u]); ("OthersNonRev"%u, FBase (-1)%Z ["˂"%u])]);
   ("Thamclosede"%u, [("ThamLoC"%u, FChar [0x1A7F; 0x1A3F]%N); ("TaiTham"%u, FChar [0x1A7F; 0x1A3F]%N); ("LaoTham"%u, FChar [0x1A7F; 0x1A3F]%N); ("KhuenTham"%u, FChar [0x1A7F; 0x1A3F]%N); ("LueTham"%u, FChar [0x1A7F; 0x1A3F]%N); ("ThamLoCRomanLoC"%u, FChar "è"%u); ("OthersRev"%u, FBase (9)%Z ["˂"%u]); ("OthersNonRev"%u, FBase (9)%Z ["˂"%u])]);
   ("Thamclosedau"%u, [("ThamLoC"%u, FChar [0x1A7F; 0x1A45]%N); ("TaiTham"%u, FChar [0x1A7F; 0x1A45]%N); ("LaoTham"%u, FChar [0x1A7F; 0x1A45]%N); ("LueTham"%u, FChar [0x1A7F; 0x1A45]%N); ("KhuenTham"%u, FChar [0x1A7F; 0x1A45]%N); ("ThamLoCRomanLoC"%u, FChar "òʽ"%u); ("OthersRev"%u, FBase (13)%Z ["˂"%u]); ("OthersNonRev"%u, FBase (13)%Z ["˂"%u])]);
   ("Thamopeno2h"%u, [("ThamLoC"%u, FChar [0x1A70; 0x1A6C; 0x1A61]%N); ("TaiTham"%u, FChar [0x1A70; 0x1A6C; 0x1A61]%N); ("LaoTham"%u, FChar [0x1A70; 0x1A6C; 0x1A61]%N); ("LueTham"%u, FChar [0x1A70; 0x1A6C; 0x1A61]%N); ("KhuenTham"%u, FChar [0x1A70; 0x1A6C; 0x1A61]%N); ("ThamLoCRomanLoC"%u, FChar "ǫḥ"%u); ("OthersRev"%u, FBase (11)%Z ["˂"%u]); ("OthersNonRev"%u, FBase (11)%Z ["˂"%u])]);
   ("Thamclosedo2h"%u, [("ThamLoC"%u, FChar [0x1A6B]%N); ("TaiTham"%u, FChar [0x1A73]%N); ("LaoTham"%u, FChar [0x1A73]%N); ("KhuenTham"%u, FChar [0x1A73]%N); ("LueTham"%u, FChar [0x1A73]%N); ("ThamLoCRomanLoC"%u, FChar "ǫḥʽ"%u); ("OthersRev"%u, FBase (11)%Z ["˂"%u]); ("OthersNonRev"%u, FBase (11)%Z ["˂"%u])]);
   ("Thamohook"%u, [("ThamLoC"%u, FChar [0x1A73]%N); ("ThamLoCRomanLoC"%u, FChar "ǫ"%u); ("OthersRev"%u, FBase (11)%Z ["˂"%u]); ("OthersNonRev"%u, FBase (11)%Z ["˂"%u])]);
   ("Thamohookclosed"%u, [("ThamLoC"%u, FChar [0x1A6C]%N); ("TaiTham"%u, FChar [0x1A6C]%N); ("LaoTham"%u, FChar [0x1A6C]%N); ("KhuenTham"%u, FChar [0x1A6C]%N); ("LueTham"%u, FChar [0x1A6C]%N); ("ThamLoCRomanLoC"%u, FChar "ǫʽ"%u); ("OthersRev"%u, FBase (11)%Z ["˂"%u]); ("OthersNonRev"%u, FBase (11)%Z ["˂"%u])]);
   ("Thamouhookk"%u, [("ThamLoC"%u, FChar [0x1A67]%N); ("TaiTham"%u, FChar [0x1A67]%N); ("LaoTham"%u, FChar [0x1A67]%N); ("KhuenTham"%u, FChar [0x1A67]%N); ("LueTham"%u, FChar [0x1A67]%N); ("ThamLoCRomanLoC"%u, FChar "ư"%u); ("OthersRev"%u, FBase (3)%Z ["˂"%u]); ("OthersNonRev"%u, FBase (3)%Z ["˂"%u])]);
   ("Thamuuhook"%u, [("ThamLoC"%u, FChar [0x1A68]%N); ("TaiTham"%u, FChar [0x1A68]%N); ("LaoTham"%u, FChar [0x1A68]%N); ("KhuenTham"%u, FChar [0x1A68]%N); ("LueTham"%u, FChar [0x1A68]%N); ("ThamLoCRomanLoC"%u, FChar "ư̄"%u); ("OthersRev"%u, FBase (4)%Z ["˂"%u]); ("OthersNonRev"%u, FBase (4)%Z ["˂"%u])]);
   ("Thamaiy"%u, [("ThamLoC"%u, FChar [0x1A71; 0x1A7F; 0x1A3F]%N); ("TaiTham"%u, FChar [0x1A71; 0x1A7F; 0x1A3F]%N); ("LaoTham"%u, FChar [0x1A71; 0x1A7F; 0x1A3F]%N); ("KhuenTham"%u, FChar [0x1A71; 0x1A7F; 0x1A3F]%N); ("LueTham"%u, FChar [0x1A71; 0x1A7F; 0x1A3F]%N); ("ThamLoCRomanLoC"%u, FChar "aiy᩺"%u); ("OthersRev"%u, FBase (10)%Z ["˂"%u]); ("OthersNonRev"%u, FBase (10)%Z ["˂"%u])]);
   ("Thamohohooki"%u, [("ThamLoC"%u, FChar [0x1A6D]%N); ("TaiTham"%u, FChar [0x1A6D]%N); ("LaoTham"%u, FChar [0x1A6D]%N); ("KhuenTham"%u, FChar [0x1A6D]%N); ("LueTham"%u, FChar [0x1A6D]%N); ("ThamLoCRomanLoC"%u, FChar "ǫi"%u); ("OthersRev"%u, FBase (10)%Z ["˂"%u]); ("OthersNonRev"%u, FBase (10)%Z ["˂"%u])]);
   ("Thameo2"%u, [("ThamLoC"%u, FChar [0x1A74; 0x1A7F; 0x1A3F]%N); ("TaiTham"%u, FChar [0x1A74; 0x1A7F; 0x1A3F]%N); ("LueTham"%u, FChar [0x1A74; 0x1A7F; 0x1A3F]%N); ("KhuenTham"%u, FChar [0x1A74; 0x1A7F; 0x1A3F]%N); ("LaoTham"%u, FChar [0x1A74; 0x1A7F; 0x1A3F]%N); ("ThamLoCRomanLoC"%u, FChar "eo"%u); ("OthersRev"%u, FBase (11)%Z ["˂"%u]); ("OthersNonRev"%u, FBase (11)%Z ["˂"%u])]);
   ("Thamohao"%u, [("ThamLoC"%u, FChar [0x1A6E; 0x1A62; 0x1A63]%N); ("Tham"%u, FChar [0x1A6E; 0x1A62; 0x1A63]%N); ("ThamLoCRomanLoC"%u, FChar "ao"%u); ("OthersRev"%u, FBase (12)%Z ["˂"%u]); ("OthersNonRev"%u, FBase (12)%Z ["˂"%u])])].

(** aksharamukha/FallBack.py:579-614 *)
Definition FB_ModernVowelSignMap : fbdict :=
  [("ShanLoCeaeup"%u, [("ShanLoC"%u, FChar [0x1085]%N); ("Shan"%u, FChar [0x1085]%N); ("ShanLoCRomanLoC"%u, FChar "èʽ"%u); ("OthersRev"%u, FBase (0)%Z ["˂"%u]); ("OthersNonRev"%u, FBase (0)%Z ["˂"%u])]);
   ("ShanLoCeae2"%u, [("ShanLoC"%u, FChar [0x1031; 0x1031]%N); ("Shan"%u, FChar [0x1031; 0x1031]%N); ("ShanLoCRomanLoC"%u, FChar "èʽ"%u); ("OthersRev"%u, FBase (0)%Z ["˂"%u]); ("OthersNonRev"%u, FBase (0)%Z ["˂"%u])]);
   ("Thamhoe"%u, [("ThamLoC"%u, FChar [0x1A6E; 0x1A68; 0x1A6C]%N); ("TaiTham"%u, FChar [0x1A6E; 0x1A68; 0x1A6C]%N); ("LaoTham"%u, FChar [0x1A6E; 0x1A68; 0x1A6C]%N); ("KhuenTham"%u, FChar [0x1A6E; 0x1A68; 0x1A6C]%N); ("LueTham"%u, FChar [0x1A6E; 0x1A68; 0x1A6C]%N); ("ThamLoCRomanLoC"%u, FChar "œ"%u); ("OthersRev"%u, FBase (1)%Z ["˂"%u]); ("OthersNonRev"%u, FBase (1)%Z ["˂"%u])]);
   ("Thamoeclosed"%u, [("ThamLoC"%u, FChar [0x1A6E; 0x1A68]%N); ("TaiTham"%u, FChar [0x1A6E; 0x1A68]%N); ("LaoTham"%u, FChar [0x1A6E; 0x1A68]%N); ("KhuenTham"%u, FChar [0x1A6E; 0x1A68]%N); ("LueTham"%u, FChar [0x1A6E; 0x1A68]%N); ("ThamLoCRomanLoC"%u, FChar "œʽ"%u); ("OthersRev"%u, FBase (1)%Z ["˂"%u]); ("OthersNonRev"%u, FBase (1)%Z ["˂"%u])])].

(** aksharamukha/FallBack.py:616-651 *)
Definition FB_ModernVowelMap : fbdict :=
  [("ShanLoCeaeup"%u, [("ShanLoC"%u, FChar "ဢႅ"%u); ("Shan"%u, FChar "ဢႅ"%u); ("ShanLoCRomanLoC"%u, FChar "è"%u); ("OthersRev"%u, FBase (0)%Z ["˂"%u]); ("OthersNonRev"%u, FBase (0)%Z ["˂"%u])]);
   ("ShanLoCeae2"%u, [("ShanLoC"%u, FChar "ဢေေ"%u); ("Shan"%u, FChar "ဢေေ"%u); ("ShanLoCRomanLoC"%u, FChar "è"%u); ("OthersRev"%u, FBase (0)%Z ["˂"%u]); ("OthersNonRev"%u, FBase (0)%Z ["˂"%u])]);
   ("Thamhoe"%u, [("ThamLoC"%u, FChar "ᩋᩮᩨᩬ"%u); ("TaiTham"%u, FChar "ᩋᩮᩨᩬ"%u); ("LaoTham"%u, FChar "ᩋᩮᩨᩬ"%u); ("LueTham"%u, FChar "ᩋᩮᩨᩬ"%u); ("KhuenTham"%u, FChar "ᩋᩮᩨᩬ"%u); ("ThamLoCRomanLoC"%u, FChar "œ"%u); ("OthersRev"%u, FBase (1)%Z ["˂"%u]); ("OthersNonRev"%u, FBase (1)%Z ["˂"%u])]);
   ("Thamoeclosed"%u, [("ThamLoC"%u, FChar "ᩋᩮᩨ"%u); ("TaiTham"%u, FChar "ᩋᩮᩨ"%u); ("LaoTham"%u, FChar "ᩋᩮᩨ"%u); ("LueTham"%u, FChar "ᩋᩮᩨ"%u); ("KhuenTham"%u, FChar "ᩋᩮᩨ"%u); ("ThamLoCRomanLoC"%u, FChar "œʽ"%u); ("OthersRev"%u, FBase (1)%Z ["˂"%u]); ("OthersNonRev"%u, FBase (1)%Z ["˂"%u])])].

(** aksharamukha/FallBack.py:653-802 *)
Definition FB_ConsonantMap : fbdict :=
  [("khuenba"%u, [("ThamLoC"%u, FChar "ᨷ"%u); ("LaoTham"%u, FChar "ᨷ"%u); ("LueTham"%u, FChar "ᨷ"%u); ("TaiTham"%u, FChar "ᨷ"%u); ("KhuenTham"%u, FChar "ᨷ"%u); ("ThamLoCRomanLoC"%u, FChar "b̤"%u); ("OthersRev"%u, FBase (22)%Z ["˂"%u]); ("OthersNonRev"%u, FBase (22)%Z ["˂"%u])]);
   ("khuenkxa"%u, [("ThamLoC"%u, FChar "ᨤ"%u); ("LueTham"%u, FChar "ᨤ"%u); ("TaiTham"%u, FChar "ᨤ"%u); ("LaoTham"%u, FChar "ᨤ"%u); ("KhuenTham"%u, FChar "ᨤ"%u); ("ThamLoCRomanLoC"%u, FChar "k̤"%u); ("OthersRev"%u, FBase (0)%Z ["˂"%u]); ("OthersNonRev"%u, FBase (0)%Z ["˂"%u])]);
   ("khuenfa"%u, [("ThamLoC"%u, FChar "ᨺ"%u); ("TaiTham"%u, FChar "ᨺ"%u); ("LueTham"%u, FChar "ᨺ"%u); ("LaoTham"%u, FChar "ᨺ"%u); ("KhuenTham"%u, FChar "ᨺ"%u); ("ThamLoCRomanLoC"%u, FChar "f̈"%u); ("OthersRev"%u, FBase (21)%Z ["˂"%u]); ("OthersNonRev"%u, FBase (21)%Z ["˂"%u])]);
   ("khuensa"%u, [("ThamLoC"%u, FChar "ᨪ"%u); ("TaiTham"%u, FChar "ᨪ"%u); ("LueTham"%u, FChar "ᨪ"%u); ("LaoTham"%u, FChar "ᨪ"%u); ("KhuenTham"%u, FChar "ᨪ"%u); ("ThamLoCRomanLoC"%u, FChar "s̤"%u); ("OthersRev"%u, FBase (31)%Z ["˂"%u]); ("OthersNonRev"%u, FBase (31)%Z ["˂"%u])]);
   ("khuenha"%u, [("ThamLoC"%u, FChar "ᩌ"%u); ("TaiTham"%u, FChar "ᩌ"%u); ("LueTham"%u, FChar "ᩌ"%u); ("LaoTham"%u, FChar "ᩌ"%u); ("KhuenTham"%u, FChar "ᩌ"%u); ("ThamLoCRomanLoC"%u, FChar "h̤"%u); ("OthersRev"%u, FBase (32)%Z ["˂"%u]); ("OthersNonRev"%u, FBase (32)%Z ["˂"%u])]);
   ("khuenya"%u, [("ThamLoC"%u, FChar "ᩀ"%u); ("LueTham"%u, FChar "ᩀ"%u); ("LaoTham"%u, FChar "ᩀ"%u); ("TaiTham"%u, FChar "ᩀ"%u); ("KhuenTham"%u, FChar "ᩀ"%u); ("ThamLoCRomanLoC"%u, FChar "ÿ"%u); ("OthersRev"%u, FBase (25)%Z ["˂"%u]); ("OthersNonRev"%u, FBase (25)%Z ["˂"%u])]);
   ("theta"%u, [("ShanLoC"%u, FChar "ႀ"%u); ("Shan"%u, FChar "ႀ"%u); ("ShanLoCRomanLoC"%u, FChar "x"%u); ("OthersRev"%u, FBase (15)%Z ["nukta"%u]); ("OthersNonRev"%u, FBase (15)%Z ["nukta"%u])]);
   ("khmernga"%u, [("KhmerLoC"%u, FChar "ង៉"%u); ("KhmerLoCRomanLoC"%u, FChar "ṅ″"%u); ("OthersRev"%u, FBase (4)%Z ["˂"%u]); ("OthersNonRev"%u, FBase (4)%Z ["˂"%u])]);
   ("khmernja"%u, [("KhmerLoC"%u, FChar "ញ៉"%u); ("KhmerLoCRomanLoC"%u, FChar "ñ″"%u); ("OthersRev"%u, FBase (9)%Z ["˂"%u]); ("OthersNonRev"%u, FBase (9)%Z ["˂"%u])]);
   ("khmerma"%u, [("KhmerLoC"%u, FChar "ម៉"%u); ("KhmerLoCRomanLoC"%u, FChar "m″"%u); ("OthersRev"%u, FBase (24)%Z ["˂"%u]); ("OthersNonRev"%u, FBase (24)%Z ["˂"%u])]);
   ("khmerpa"%u, [("KhmerLoC"%u, FChar "ប៉"%u); ("KhmerLoCRomanLoC"%u, FChar "p″"%u); ("OthersRev"%u, FBase (20)%Z ["˂"%u]); ("OthersNonRev"%u, FBase (20)%Z ["˂"%u])]);
   ("khmerya"%u, [("KhmerLoC"%u, FChar "យ៉"%u); ("KhmerLoCRomanLoC"%u, FChar "y″"%u); ("OthersRev"%u, FBase (25)%Z ["˂"%u]); ("OthersNonRev"%u, FBase (25)%Z ["˂"%u])]);
   ("khmerra"%u, [("KhmerLoC"%u, FChar "រ៉"%u); ("KhmerLoCRomanLoC"%u, FChar "r″"%u); ("OthersRev"%u, FBase (26)%Z ["˂"%u]); ("OthersNonRev"%u, FBase (26)%Z ["˂"%u])]);
   ("khmerva"%u, [("KhmerLoC"%u, FChar "វ៉"%u); ("KhmerLoCRomanLoC"%u, FChar "v″"%u); ("OthersRev"%u, FBase (28)%Z ["˂"%u]); ("OthersNonRev"%u, FBase (28)%Z ["˂"%u])]);
   ("khmerpa2"%u, [("KhmerLoC"%u, FChar "ប៊"%u); ("KhmerLoCRomanLoC"%u, FChar "p′"%u); ("OthersRev"%u, FBase (20)%Z ["˂"%u]); ("OthersNonRev"%u, FBase (20)%Z ["˂"%u])]);
   ("khmersa"%u, [("KhmerLoC"%u, FChar "ស៊"%u); ("KhmerLoCRomanLoC"%u, FChar "s′"%u); ("OthersRev"%u, FBase (31)%Z ["˂"%u]); ("OthersNonRev"%u, FBase (31)%Z ["˂"%u])]);
   ("khmerha"%u, [("Khmer"%u, FChar "ហ៊"%u); ("KhmerLoC"%u, FChar "ហ៊"%u); ("KhmerLoCRomanLoC"%u, FChar "h′"%u); ("OthersRev"%u, FBase (32)%Z ["˂"%u]); ("OthersNonRev"%u, FBase (32)%Z ["˂"%u])]);
   ("khmeracons"%u, [("KhmerLoC"%u, FChar "អ"%u); ("KhmerLoCRomanLoC"%u, FChar "‛ʹ"%u); ("OthersRev"%u, FBase (0)%Z ["˂"%u]); ("OthersNonRev"%u, FBase (0)%Z ["˂"%u])]);
   ("khmeraconsmod"%u, [("KhmerLoC"%u, FChar "អ៊"%u); ("KhmerLoCRomanLoC"%u, FChar "‛ʹ′"%u); ("OthersRev"%u, FBase (0)%Z ["˂"%u]); ("OthersNonRev"%u, FBase (0)%Z ["˂"%u])]);
   ("ThamDoubleNJNJ"%u, [("ThamLoC"%u, FChar "ᨬᩚ"%u); ("ThamLoCRomanLoC"%u, FChar "ññ"%u); ("OthersRev"%u, FBase (9)%Z ["˂"%u]); ("OthersNonRev"%u, FBase (9)%Z ["˂"%u])])].

(** aksharamukha/FallBack.py:804-847 *)
Definition FB_SignMap : fbdict :=
  [("shanexcl"%u, [("ShanLoC"%u, FChar "႟"%u); ("Shan"%u, FChar "႟"%u); ("ShanLoCRomanLoC"%u, FChar "u*"%u); ("OthersRev"%u, FBase (-1)%Z ["!˂˂˂˂˂"%u]); ("OthersNonRev"%u, FBase (-1)%Z ["!˂˂˂˂"%u])]);
   ("shanone"%u, [("ShanLoC"%u, FChar "႞"%u); ("Shan"%u, FChar "႞"%u); ("ShanLoCRomanLoC"%u, FChar "n*"%u); ("OthersRev"%u, FBase (-1)%Z ["!!˂"%u]); ("OthersNonRev"%u, FBase (-1)%Z ["!!˂"%u])]);
   ("Khmerdivider"%u, [("KhmerLoC"%u, FChar "៖"%u); ("KhmerLoCRomanLoC"%u, FChar ":"%u); ("OthersRev"%u, FBase (-1)%Z ["!!!˂"%u]); ("OthersNonRev"%u, FBase (-1)%Z ["!!!˂"%u])]);
   ("Thamlae"%u, [("ThamLoC"%u, FChar "ᩓ"%u); ("ThamLoCRomanLoC"%u, FChar "læ"%u); ("OthersRev"%u, FBase (-1)%Z ["!!!˂"%u]); ("OthersNonRev"%u, FBase (-1)%Z ["!!!˂"%u])]);
   ([0x27; 0x44; 0x61; 0x6E; 0x64; 0x61; 0x31; 0x27; 0x3A; 0x20; 0x7B; 0xA; 0x20; 0x20; 0x20; 0x20; 0x20; 0x20; 0x20; 0x20; 0x27; 0x44; 0x65; 0x76; 0x61; 0x6E; 0x61; 0x67; 0x61; 0x72; 0x69; 0x27; 0x3A; 0x20; 0x27; 0x2502; 0x27; 0x2C; 0xA; 0x20; 0x20; 0x20; 0x20; 0x20; 0x20; 0x20; 0x20; 0x27; 0x4F; 0x74; 0x68; 0x65; 0x72; 0x73; 0x52; 0x65; 0x76; 0x27; 0x3A; 0x20; 0x5B; 0x31; 0x2C; 0x20; 0x27; 0x2C2; 0x27; 0x5D; 0x2C; 0xA; 0x20; 0x20; 0x20; 0x20; 0x20; 0x20; 0x20; 0x20; 0x27; 0x4F; 0x74; 0x68; 0x65; 0x72; 0x73; 0x4E; 0x6F; 0x6E; 0x52; 0x65; 0x76; 0x27; 0x3A; 0x20; 0x5B; 0x31; 0x2C; 0x20; 0x27; 0x2C2; 0x27; 0x5D; 0x2C; 0xA; 0x20; 0x20; 0x20; 0x20; 0x7D; 0x2C; 0xA; 0x20; 0x20; 0x20; 0x20; 0x27; 0x44; 0x61; 0x6E; 0x64; 0x61; 0x32; 0x27; 0x3A; 0x20; 0x7B; 0xA; 0x20; 0x20; 0x20; 0x20; 0x20; 0x20; 0x20; 0x20; 0x27; 0x44; 0x65; 0x76; 0x61; 0x6E; 0x61; 0x67; 0x61; 0x72; 0x69; 0x27; 0x3A; 0x20; 0x27; 0x2503; 0x27; 0x2C; 0xA; 0x20; 0x20; 0x20; 0x20; 0x20; 0x20; 0x20; 0x20; 0x27; 0x4F; 0x74; 0x68; 0x65; 0x72; 0x73; 0x52; 0x65; 0x76; 0x27; 0x3A; 0x20; 0x5B; 0x32; 0x2C; 0x20; 0x27; 0x2C2; 0x27; 0x5D; 0x2C; 0xA; 0x20; 0x20; 0x20; 0x20; 0x20; 0x20; 0x20; 0x20; 0x27; 0x4F; 0x74; 0x68; 0x65; 0x72; 0x73; 0x4E; 0x6F; 0x6E; 0x52; 0x65; 0x76; 0x27; 0x3A; 0x20; 0x5B; 0x32; 0x2C; 0x20; 0x27; 0x2C2; 0x27; 0x5D; 0x2C; 0xA; 0x20; 0x20; 0x20; 0x20; 0x7D; 0x2C; 0x54; 0x68; 0x61; 0x6D; 0x6C; 0x61; 0x65]%N, [("ThamLoC"%u, FChar "ᩓ"%u); ("ThamLoCRomanLoC"%u, FChar "læ"%u); ("OthersRev"%u, FBase (-1)%Z ["!!!˂"%u]); ("OthersNonRev"%u, FBase (-1)%Z ["!!!˂"%u])])].

(** aksharamukha/FallBack.py:849-1002 *)
Definition FB_AyogavahaMap : fbdict :=
  [("Jihvamuliya"%u, [("IAST"%u, FChar "ẖ"%u); ("ISO"%u, FChar "ẖ"%u); ("IASTPali"%u, FChar "ẖ"%u); ("Titus"%u, FChar "ẖ"%u); ("HK"%u, FChar "X"%u); ("Itrans"%u, FChar "X"%u); ("Devanagari"%u, FChar "ᳵ"%u); ("Bengali"%u, FChar "ᳵ"%u); ("Assamese"%u, FChar "ᳵ"%u); ("Kannada"%u, FChar "ೱ"%u); ("Tibetan"%u, FChar "ྈ"%u); ("Brahmi"%u, FChar "𑀃"%u); ("Sharada"%u, FChar "𑇂"%u); ("Newa"%u, FChar "𑑠"%u); ("Soyombo"%u, FChar "𑪄"%u); ("OthersRev"%u, FBase (2)%Z ["˂"%u]); ("OthersNonRev"%u, FBase (2)%Z ["˂"%u])]);
   ("Upadhmaniya"%u, [("IAST"%u, FChar "ḫ"%u); ("ISO"%u, FChar "ḫ"%u); ("IASTPali"%u, FChar "ḫ"%u); ("Titus"%u, FChar "ḫ"%u); ("HK"%u, FChar "F"%u); ("Itrans"%u, FChar "F"%u); ("Devanagari"%u, FChar "ᳶ"%u); ("Bengali"%u, FChar "ᳶ"%u); ("Assamese"%u, FChar "ᳶ"%u); ("Kannada"%u, FChar "ೲ"%u); ("Tibetan"%u, FChar "ྉ"%u); ("Brahmi"%u, FChar "𑀄"%u); ("Sharada"%u, FChar "𑇃"%u); ("Newa"%u, FChar "𑑡"%u); ("Soyombo"%u, FChar "𑪅"%u); ("OthersRev"%u, FBase (2)%Z ["˂"%u]); ("OthersNonRev"%u, FBase (2)%Z ["˂"%u])]);
   ("shantone2"%u, [("ShanLoC"%u, FChar [0x1087]%N); ("Shan"%u, FChar [0x1087]%N); ("ShanLoCRomanLoC"%u, FChar [0x322]%N); ("OthersRev"%u, FBase (-1)%Z ["˂"%u]); ("OthersNonRev"%u, FBase (-1)%Z ["˂"%u])]);
   ("shantone3"%u, [("ShanLoC"%u, FChar [0x1088]%N); ("Shan"%u, FChar [0x1088]%N); ("ShanLoCRomanLoC"%u, FChar [0x310]%N); ("OthersRev"%u, FBase (-1)%Z ["˂˂"%u]); ("OthersNonRev"%u, FBase (-1)%Z ["˂˂"%u])]);
   ("shantone5"%u, [("ShanLoC"%u, FChar [0x1089]%N); ("Shan"%u, FChar [0x1089]%N); ("ShanLoCRomanLoC"%u, FChar "ʹ"%u); ("OthersRev"%u, FBase (-1)%Z ["˂˂˂"%u]); ("OthersNonRev"%u, FBase (-1)%Z ["˂˂˂"%u])]);
   ("shantone6"%u, [("ShanLoC"%u, FChar [0x108A]%N); ("Shan"%u, FChar [0x108A]%N); ("ShanLoCRomanLoC"%u, FChar "˝"%u); ("OthersRev"%u, FBase (-1)%Z ["˂˂˂˂"%u]); ("OthersNonRev"%u, FBase (-1)%Z ["˂˂˂˂"%u])]);
   ("KhmerTone3"%u, [("KhmerLoC"%u, FChar [0x17CD]%N); ("KhmerLoCRomanLoC"%u, FChar "˚"%u); ("OthersRev"%u, FBase (-1)%Z ["˂˂˂"%u]); ("OthersNonRev"%u, FBase (-1)%Z ["˂˂˂"%u])]);
   ("KhmerTone4"%u, [("KhmerLoC"%u, FChar [0x17CE]%N); ("KhmerLoCRomanLoC"%u, FChar "’"%u); ("OthersRev"%u, FBase (-1)%Z ["˂˂˂"%u]); ("OthersNonRev"%u, FBase (-1)%Z ["˂˂˂"%u])]);
   ("KhmerTone5"%u, [("KhmerLoC"%u, FChar [0x17CF]%N); ("KhmerLoCRomanLoC"%u, FChar "ʻ"%u); ("OthersRev"%u, FBase (-1)%Z ["˂˂˂"%u]); ("OthersNonRev"%u, FBase (-1)%Z ["˂˂˂"%u])]);
   ("Khmerbreve"%u, [("KhmerLoC"%u, FChar [0x17D0]%N); ("KhmerLoCRomanLoC"%u, FChar [0x306]%N); ("OthersRev"%u, FBase (-1)%Z ["˂"%u]); ("OthersNonRev"%u, FBase (-1)%Z ["˂"%u])]);
   ("Khmervisarga2"%u, [("KhmerLoC"%u, FChar [0x17C8]%N); ("KhmerLoCRomanLoC"%u, FChar [0x300]%N); ("OthersRev"%u, FBase (-1)%Z ["˂"%u]); ("OthersNonRev"%u, FBase (-1)%Z ["˂"%u])]);
   ("Khmershortener"%u, [("KhmerLoC"%u, FChar [0x17CB]%N); ("KhmerLoCRomanLoC"%u, FChar [0x301]%N); ("OthersRev"%u, FBase (-1)%Z ["˂"%u]); ("OthersNonRev"%u, FBase (-1)%Z ["˂"%u])]);
   ("ThamTone1"%u, [("ThamLoC"%u, FChar [0x1A75]%N); ("TaiTham"%u, FChar [0x1A75]%N); ("LaoTham"%u, FChar [0x1A75]%N); ("LueTham"%u, FChar [0x1A75]%N); ("KhuenTham"%u, FChar [0x1A75]%N); ("ThamLoCRomanLoC"%u, FChar "′"%u); ("OthersRev"%u, FBase (-1)%Z ["˂˂˂˂˂"%u]); ("OthersNonRev"%u, FBase (-1)%Z ["˂˂˂˂˂"%u])]);
   ("ThamTone2"%u, [("ThamLoC"%u, FChar [0x1A76]%N); ("TaiTham"%u, FChar [0x1A76]%N); ("LaoTham"%u, FChar [0x1A76]%N); ("LueTham"%u, FChar [0x1A76]%N); ("KhuenTham"%u, FChar [0x1A76]%N); ("ThamLoCRomanLoC"%u, FChar "″"%u); ("OthersRev"%u, FBase (-1)%Z ["˂˂˂˂˂"%u]); ("OthersNonRev"%u, FBase (-1)%Z ["˂˂˂˂˂"%u])]);
   ("ThamTone3"%u, [("ThamLoC"%u, FChar [0x1A77]%N); ("TaiTham"%u, FChar [0x1A77]%N); ("LaoTham"%u, FChar [0x1A77]%N); ("LueTham"%u, FChar [0x1A77]%N); ("KhuenTham"%u, FChar [0x1A77]%N); ("ThamLoCRomanLoC"%u, FChar "ˆ"%u); ("OthersRev"%u, FBase (-1)%Z ["˂˂˂˂˂"%u]); ("OthersNonRev"%u, FBase (-1)%Z ["˂˂˂˂˂"%u])]);
   ("ThamTone4"%u, [("ThamLoC"%u, FChar [0x1A78]%N); ("TaiTham"%u, FChar [0x1A78]%N); ("LaoTham"%u, FChar [0x1A78]%N); ("LueTham"%u, FChar [0x1A78]%N); ("KhuenTham"%u, FChar [0x1A78]%N); ("ThamLoCRomanLoC"%u, FChar "ᴶ"%u); ("OthersRev"%u, FBase (-1)%Z ["˂˂˂˂˂"%u]); ("OthersNonRev"%u, FBase (-1)%Z ["˂˂˂˂˂"%u])]);
   ("ThamTone5"%u, [("ThamLoC"%u, FChar [0x1A79]%N); ("TaiTham"%u, FChar [0x1A79]%N); ("LaoTham"%u, FChar [0x1A79]%N); ("LueTham"%u, FChar [0x1A79]%N); ("KhuenTham"%u, FChar [0x1A79]%N); ("ThamLoCRomanLoC"%u, FChar "ʵ"%u); ("OthersRev"%u, FBase (-1)%Z ["˂˂˂˂˂"%u]); ("OthersNonRev"%u, FBase (-1)%Z ["˂˂˂˂˂"%u])])].
