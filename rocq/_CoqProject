-Q theories Verif
theories/PyUni.v
theories/PyBase.v
theories/PyStr.v
theories/PyRe.v
theories/M_Components.v
theories/M_Ahb.v
theories/M_Sgh.v
theories/M_Navigation.v
theories/M_Matching.v
theories/L_Base.v
theories/S_Prefix.v
theories/L_Prefix.v
theories/C_Prefix.v
theories/L_Re.v
theories/S_Text.v
theories/S_Numbers.v
theories/L_Str.v
theories/L_Validators.v
theories/S_Sgh.v
theories/L_Sgh.v
theories/C_Sgh.v
theories/S_FlatAhb.v
theories/L_FlatAhb.v
theories/C_FlatAhb.v
theories/S_ValuePool.v
theories/L_ValuePool.v
theories/C_ValuePool.v
theories/S_DeepAhb.v
theories/L_DeepAhb.v
theories/C_DeepAhb.v
theories/S_Paths.v
theories/L_Paths.v
theories/C_Paths.v
theories/S_Navigation.v
theories/L_Navigation.v
theories/L_Locations.v
theories/C_Navigation.v
theories/S_Matching.v
theories/L_Matching.v
theories/L_DeepTree.v
theories/L_DeepLoop.v
theories/L_DeepResult.v
theories/L_DeepLookup.v
theories/L_Parts.v
theories/C_Matching.v
theories/M_Schema.v
theories/L_Numbers.v
theories/S_Json.v
theories/L_Uuid.v
theories/L_Json.v
theories/L_Load.v
theories/C_Json.v
theories/M_Xml.v
theories/M_LocationXml.v
theories/S_LocationXml.v
theories/L_LocationXml.v
theories/C_LocationXml.v
theories/M_CsvReader.v
theories/S_Csv.v
theories/L_Csv.v
theories/C_Csv.v
theories/M_MigXml.v
theories/L_Caps.v
theories/S_MigXml.v
theories/L_Qualifiers.v
theories/L_Names.v
theories/L_MigTree.v
theories/L_MigSearch.v
theories/C_MigXml.v
theories/M_Misc.v
theories/S_Misc.v
theories/L_Misc.v
theories/C_Misc.v
theories/M_Cli.v
theories/S_Cli.v
theories/L_Reorder.v
theories/L_DeepValid.v
theories/L_LoadErrors.v
theories/L_Cli.v
theories/C_Cli.v
theories/M_Transformation.v
theories/S_Transformation.v
theories/L_Coroutines.v
theories/L_Generation.v
theories/L_Positions.v
theories/L_Transformation.v
theories/L_Race.v
theories/C_Transformation.v
theories/M_JsonText.v
theories/S_JsonText.v
theories/L_JsonText.v
theories/L_JsonFile.v
theories/C_JsonText.v
theories/M_CsvText.v
theories/C_Numbers.v
theories/C_Preserved.v
theories/C_Layout.v
theories/S_CsvText.v
theories/L_CsvText.v
theories/C_CsvText.v
theories/M_Tree.v
theories/S_Tree.v
theories/L_Tree.v
theories/C_Tree.v
theories/S_Histories.v
theories/C_Histories.v
theories/M_XmlText.v
theories/S_XmlText.v
theories/L_XmlText.v
theories/C_XmlText.v
theories/S_LocationRead.v
theories/L_LocationRead.v
theories/C_LocationRead.v
theories/M_MigFile.v
theories/S_MigFile.v
theories/L_MigFile.v
theories/C_MigFile.v
theories/S_Pipeline.v
theories/C_Pipeline.v
theories/S_DeepSuccess.v
theories/L_DeepSuccess.v
theories/L_DeepUnique.v
theories/C_DeepSuccess.v
theories/M_JsonSchema.v
theories/S_JsonSchema.v
theories/C_JsonSchema.v
theories/S_LocationsExact.v
theories/L_LocationsExact.v
theories/C_LocationsExact.v
theories/L_Failures.v
theories/C_Failures.v
theories/M_Runs.v
theories/L_Cut.v
theories/L_Runs.v
theories/L_Worlds.v
theories/C_Runs.v
theories/M_Virtual.v
theories/S_Virtual.v
theories/L_Virtual.v
theories/L_VirtualAll.v
theories/C_Virtual.v
theories/M_Callbacks.v
theories/S_Callbacks.v
theories/L_Callbacks.v
theories/C_Callbacks.v
theories/L_ReFirst.v
theories/T_Ahb.v
theories/T_Components.v
theories/T_Csv.v
theories/T_Csv11042.v
theories/T_Division.v
theories/T_Edifact.v
theories/T_ElementHelpers.v
theories/T_LocationXml.v
theories/T_Matching.v
theories/T_Mig.v
theories/T_MigXml.v
theories/T_Names.v
theories/T_Navigation.v
theories/T_Navigation11042.v
theories/T_Searching.v
theories/T_Tree.v
theories/T_MigFiles.v
theories/T_Real11042.v
theories/S_Chars.v
theories/L_Chars.v
theories/C_Chars.v
