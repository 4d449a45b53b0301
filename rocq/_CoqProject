-Q theories Verif
theories/PyStr.v
theories/UnicodeTables.v
theories/Unicode.v
theories/Regex.v
theories/Prog.v
theories/ScriptData.v
theories/FallBackData.v
theories/GMLists.v
theories/GeneralMap.v
theories/FixNum.v
theories/PostProcess1.v
theories/ConvertFix1.v
theories/PreProcess1.v
theories/PostProcess2.v
theories/Dispatch.v
theories/GimelData.v
theories/YamlData.v
theories/Gimeltra.v
theories/Convert.v
theories/Transliterate.v
theories/StrFacts.v
theories/AbsRegex.v
theories/ReLits.v
theories/Behind.v
theories/Between.v
theories/Lead.v
theories/NormCut.v
theories/Lang.v
theories/Tokenise.v
theories/Analyze.v
theories/IndicText.v
theories/IndicRT.v
theories/IndicFine.v
theories/Stages.v
theories/BlockFacts.v
theories/RTAssamese.v
theories/RTBengali.v
theories/RTSinhala.v
theories/RTTamil.v
theories/RTTelugu.v
theories/RTMalayalam.v
theories/RTGurmukhi.v
theories/PathFacts.v
theories/FineRT.v
theories/RomanText.v
theories/RomanStages.v
theories/RomanRT.v
theories/RomanPairs.v
theories/RomanSpell.v
theories/SortFacts.v
theories/ConvertFacts.v
theories/ApiFacts.v
theories/OptionFacts.v
theories/CodeFacts.v
theories/DetectFacts.v
theories/TextFacts.v
theories/NumFacts.v
theories/SegmentFacts.v
theories/TableFacts.v
theories/FileApi.v
theories/FileFacts.v
theories/Safe.v
theories/SafeFacts.v
theories/TotalFacts.v
theories/Marks.v
theories/MarkFacts.v
theories/MarkLeak.v
theories/Keeps.v
theories/KeepFacts.v
theories/Foreign.v
theories/Dandas.v
theories/LineFacts.v
theories/Lines.v
theories/Apart.v
theories/ApartFacts.v
theories/ApartConv.v
theories/ApartMain.v
theories/OmEdges.v
theories/EdgeFacts.v
theories/Separate.v
theories/LineByLine.v
theories/ForeignApart.v
theories/WordByWord.v
theories/Pieces.v
theories/Nativize.v
theories/Defaults.v
theories/Numerals.v
theories/OwnScript.v
theories/DefaultPath.v
