-Q theories Verif
theories/M_Base.v
theories/M_Float.v
theories/M_Text.v
theories/M_Construct.v
theories/M_Structs.v
theories/M_Events.v
theories/M_Parse.v
theories/S_Canon.v
theories/S_File.v
theories/P_Base.v
theories/P_Codec.v
theories/P_Float.v
theories/P_Text.v
theories/P_RT.v
theories/P_Cells.v
theories/S_Real.v
theories/P_Round.v
theories/P_Kinds.v
theories/P_Lists.v
theories/P_Special.v
theories/P_Payload.v
theories/P_File.v
theories/P_Null.v
theories/M_Save.v
theories/S_Domain.v
theories/P_Err.v
theories/P_Save.v
theories/P_Domain.v
theories/P_Class.v
theories/M_Tree.v
theories/S_Tree.v
theories/P_TreeBase.v
theories/P_Tree.v
theories/P_TreeEdit.v
theories/P_TreeHist.v
theories/M_Prop.v
theories/M_Custom.v
theories/S_Prop.v
theories/P_Prop.v
theories/P_Edit.v
theories/S_Layout.v
theories/P_Layout.v
theories/P_Struct.v
theories/P_Records.v
theories/P_EditStruct.v
theories/P_Misfit.v
theories/P_Rewrite.v
theories/P_Written.v
theories/P_Values.v
theories/C_Samples.v
theories/C_File.v
theories/C_Event.v
theories/C_Tree.v
theories/C_Prop.v
theories/C_Struct.v
theories/C_Values.v
theories/M_Project.v
theories/S_Project.v
theories/P_Project.v
theories/P_Puts.v
theories/P_Tempo.v
theories/P_Header.v
theories/C_Project.v
theories/M_Items.v
theories/S_Items.v
theories/P_Items.v
theories/C_Items.v
theories/M_Collections.v
theories/S_Collections.v
theories/P_Patterns.v
theories/P_Views.v
theories/P_Rack.v
theories/P_Mixer.v
theories/P_Arrange.v
theories/C_Patterns.v
theories/C_Rack.v
theories/C_Mixer.v
theories/C_Arrange.v
theories/P_Plugins.v
theories/C_Plugins.v
theories/C_Index.v
theories/M_Models.v
theories/P_Session.v
theories/S_Models.v
theories/P_Models.v
theories/C_Session.v
theories/P_Number.v
theories/C_Playlist.v
theories/C_Dicts.v
theories/C_Inserts.v
theories/P_Dates.v
theories/C_Dates.v
theories/C_Paths.v
theories/M_Markers.v
theories/C_Markers.v
theories/S_Automation.v
theories/P_Automation.v
theories/C_Automation.v
theories/S_Notes.v
theories/P_Notes.v
theories/C_Notes.v
theories/S_Vst.v
theories/P_Vst.v
theories/C_Vst.v
theories/S_Edits.v
theories/P_Edits.v
theories/C_Edits.v
theories/M_Api.v
theories/S_Api.v
theories/P_Api.v
theories/P_Nested.v
theories/C_Api.v
theories/C_Objects.v
theories/S_Names.v
theories/C_Names.v
theories/M_VstApi.v
theories/S_VstApi.v
theories/P_VstApi.v
theories/C_VstApi.v
theories/M_Repr.v
theories/C_Repr.v
theories/M_Equal.v
theories/S_Equal.v
theories/P_Equal.v
theories/C_Equal.v
theories/M_Compare.v
theories/P_Compare.v
theories/C_Compare.v
theories/M_Track.v
theories/S_Track.v
theories/P_Track.v
theories/C_Track.v
theories/M_ReprEq.v
theories/C_ReprEq.v
theories/M_Print.v
theories/C_Print.v
theories/M_PrintAll.v
theories/C_PrintAll.v
