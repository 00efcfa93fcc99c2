-Q theories Verif
theories/Base.v
theories/A85_Model.v
theories/A85_Spec.v
theories/A85_Proofs.v
theories/A85_Props.v
theories/LZW_Model.v
theories/LZW_Spec.v
theories/LZW_Proofs.v
theories/LZW_Props.v
theories/PNG_Model.v
theories/PNG_Spec.v
theories/PNG_Proofs.v
theories/PNG_Props.v
theories/Lex_Model.v
theories/Lex_Chunk.v
theories/Lex_Spec.v
theories/Lex_Proofs.v
theories/Lex_Props.v
theories/Lines_Model.v
theories/Lines_Spec.v
theories/Lines_Proofs.v
theories/Lines_Props.v
theories/Obj.v
theories/Stack_Model.v
theories/Stack_Spec.v
theories/Stack_Proofs.v
theories/StreamObj_Proofs.v
theories/Stack_Props.v
theories/Content_Model.v
theories/Content_Spec.v
theories/Content_Proofs.v
theories/Content_Props.v
theories/Stream_Model.v
theories/Stream_Spec.v
theories/Stream_Props.v
theories/XRef_Model.v
theories/XRef_Spec.v
theories/XRef_Proofs.v
theories/Doc_Model.v
theories/Doc_Spec.v
theories/Doc_Proofs.v
theories/Witness.v
theories/XRef_Props.v
theories/Doc_Props.v
theories/Num.v
theories/Geom_Model.v
theories/Geom_Spec.v
theories/Geom_Proofs.v
theories/Geom_Props.v
theories/Page_Model.v
theories/Page_Spec.v
theories/Page_Proofs.v
theories/Page_Props.v
theories/Interp_Model.v
theories/Interp_Spec.v
theories/Interp_Proofs.v
theories/Text_Proofs.v
theories/Interp_Props.v
theories/Interp_Witness.v
theories/Forms_Props.v
theories/CMap_Model.v
theories/CMap_Spec.v
theories/CMap_Proofs.v
theories/Enc_Proofs.v
theories/CMap_Props.v
theories/TrueType_Model.v
theories/Font_Model.v
theories/TrueType_Proofs.v
theories/Font_Spec.v
theories/Font_Proofs.v
theories/Font_Props.v
theories/Font_Witness.v
theories/RC4.v
theories/Sec_Model.v
theories/Sec_Spec.v
theories/Sec_Props.v
theories/Sec_Witness.v
theories/CCITT_Model.v
theories/CCITT_Spec.v
theories/CCITT_Proofs.v
theories/CCITT_Props.v
theories/Markup_Model.v
theories/Markup_Spec.v
theories/Markup_Proofs.v
theories/JsonWriter_Proofs.v
theories/Markup_Props.v
theories/BMP_Model.v
theories/BMP_Spec.v
theories/BMP_Props.v
theories/Convert_Model.v
theories/Convert_Spec.v
theories/TextFile_Props.v
theories/Generic_Props.v
theories/State_Spec.v
theories/State_Props.v
theories/Open_Model.v
theories/Open_Spec.v
theories/Open_Props.v
theories/XmlFile_Spec.v
theories/XmlFile_Props.v
theories/JsonFile_Spec.v
theories/JsonFile_Props.v
theories/Fallback_Model.v
theories/Fallback_Spec.v
theories/Fallback_Proofs.v
theories/Fallback_Props.v
theories/Names_Model.v
theories/Names_Spec.v
theories/Names_Props.v
theories/Total_Spec.v
theories/Total_Props.v
theories/Instr_Spec.v
theories/Instr_Props.v
theories/Multi_Spec.v
theories/Multi_Props.v
theories/PathBox_Props.v
theories/FontTotal_Spec.v
theories/FontTotal_Props.v
theories/TrueType_Spec.v
theories/TrueType_Props.v
theories/Weight_Model.v
theories/Weight_Spec.v
theories/Weight_Props.v
theories/Extract_Model.v
theories/Sections_Spec.v
theories/Sections_Props.v
theories/Sections_Cases.v
theories/Extract_Spec.v
theories/Extract_Proofs.v
theories/Extract_Props.v
theories/Extract_Cases.v
theories/Dispatch_Model.v
theories/Dispatch_Spec.v
theories/Dispatch_Props.v
theories/Dispatch_Cases.v
theories/Yaml_Model.v
theories/Yaml_Spec.v
theories/Yaml_Proofs.v
theories/YamlFile_Spec.v
theories/YamlFile_Props.v
theories/Html_Model.v
theories/Html_Spec.v
theories/Html_Props.v
theories/Layout_Model.v
theories/Layout_Spec.v
theories/Layout_Props.v
theories/ExtractEnc_Spec.v
theories/ExtractEnc_Props.v
theories/ExtractEnc_Cases.v
theories/ExtractEnc_Denied.v
theories/Place_Spec.v
theories/Boxes_Props.v
theories/Place_Props.v
theories/Measure_Spec.v
theories/Measure_Props.v
theories/PlaceFile_Spec.v
theories/PlaceFile_Props.v
theories/PlaceFile_Cases.v
theories/Image_Model.v
theories/Image_Spec.v
theories/Image_Props.v
theories/Latin_Model.v
theories/Latin_Spec.v
theories/Latin_Props.v
theories/Colour_Spec.v
theories/Colour_Props.v
theories/Whole_Props.v
theories/FileXml_Spec.v
theories/FileXml_Props.v
theories/FileXml_Cases.v
theories/Shape_Spec.v
theories/Shape_Props.v
theories/ShapeFile_Spec.v
theories/ShapeFile_Props.v
theories/ShapeFile_Cases.v
theories/CFF_Model.v
theories/CFF_Spec.v
theories/CFF_Proofs.v
theories/CFF_Props.v
theories/Nest_Spec.v
theories/Nest_Props.v
theories/Nest_Cases.v
theories/FileJson_Spec.v
theories/FileJson_Props.v
theories/FileNest_Spec.v
theories/FileNest_Props.v
theories/FileJson_Cases.v
theories/FileYaml_Spec.v
theories/FileYaml_Props.v
theories/FileYaml_Cases.v
theories/FileHtml_Spec.v
theories/FileHtml_Props.v
theories/FileHtml_Cases.v
theories/CMapDB_Model.v
theories/CMapDB_Spec.v
theories/CMapDB_Props.v
theories/PlaceEnc_Spec.v
theories/PlaceEnc_Props.v
theories/PlaceEnc_Cases.v
theories/PlaceEncFile_Props.v
theories/PlaceEncFile_Cases.v
theories/Assumptions.v
