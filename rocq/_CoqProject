-Q theories Verif
theories/Base.v
theories/M_Table.v
theories/M_Header.v
theories/M_Load.v
theories/M_Stream.v
theories/M_Tree.v
theories/Spec_IO.v
theories/Spec_Stream.v
theories/L_Base.v
theories/L_Stream.v
theories/L_Stream2.v
theories/L_Stream3.v
theories/Spec_Load.v
theories/M_Open.v
theories/L_Load.v
theories/L_Load2.v
theories/L_Header.v
theories/Spec_Tree.v
theories/L_Tree.v
theories/L_Tree2.v
theories/L_Open.v
theories/L_Tree3.v
theories/L_Tree4.v
theories/Spec_Open.v
theories/L_Open2.v
theories/L_Exact.v
theories/L_Open4.v
theories/M_Item.v
theories/M_File.v
theories/M_Time.v
theories/M_Free.v
theories/M_Mount.v
theories/Spec_File.v
theories/Spec_Item.v
theories/Spec_Time.v
theories/Spec_Free.v
theories/Spec_Mount.v
theories/M_Prop.v
theories/M_PropFree.v
theories/M_Export.v
theories/Spec_Content.v
theories/Spec_Prop.v
theories/Spec_PropFree.v
theories/Spec_Export.v
theories/L_Item.v
theories/L_Session.v
theories/L_Depth.v
theories/L_File.v
theories/L_Time.v
theories/L_Free.v
theories/L_Mount.v
theories/L_Prop.v
theories/L_Prop2.v
theories/L_Prop3.v
theories/L_PropFree.v
theories/L_Export.v
theories/L_Export2.v
theories/L_Export3.v
theories/X_Stream.v
theories/X_File.v
theories/X_Ssat.v
theories/X_Mount.v
theories/X_Linear.v
theories/X_Prop.v
theories/X_Content.v
theories/X_Export.v
theories/M_Fuse.v
theories/Spec_Fuse.v
theories/L_Fuse.v
theories/L_Fuse2.v
theories/X_Fuse.v
theories/P_Stream.v
theories/P_Open.v
theories/P_Tree.v
theories/P_File.v
theories/P_Time.v
theories/P_Mount.v
theories/P_Free.v
theories/P_Prop.v
theories/P_PropFree.v
theories/P_Export.v
theories/P_Fuse.v
theories/M_Python.v
theories/Spec_Python.v
theories/L_Python.v
theories/P_Python.v
theories/Spec_Write.v
theories/L_Write.v
theories/L_Write2.v
theories/L_Write3.v
theories/L_Write4.v
theories/L_Write5.v
theories/L_Write6.v
theories/L_Write7.v
theories/P_Write.v
theories/M_Items.v
theories/Spec_Items.v
theories/L_Items.v
theories/L_Items2.v
theories/L_Items3.v
theories/P_Items.v
theories/M_Refs.v
theories/Spec_Refs.v
theories/L_Refs.v
theories/P_Refs.v
theories/M_PyProp.v
theories/Spec_PyProp.v
theories/L_PyProp.v
theories/P_PyProp.v
theories/M_Info.v
theories/Spec_Info.v
theories/L_Info.v
theories/L_Info2.v
theories/L_Info3.v
theories/L_Info4.v
theories/L_Sound.v
theories/L_Info5.v
theories/L_Info6.v
theories/P_Info.v
theories/M_Getopt.v
theories/Spec_Getopt.v
theories/L_Getopt.v
theories/P_Getopt.v
theories/M_ExportTool.v
theories/Spec_ExportTool.v
theories/L_ExportTool.v
theories/L_ExportTool2.v
theories/L_ExportTool3.v
theories/P_ExportTool.v
theories/M_CompObj.v
theories/Spec_CompObj.v
theories/L_CompObj.v
theories/L_CompObj2.v
theories/L_CompObj3.v
theories/P_CompObj.v
theories/M_Module.v
theories/Spec_Module.v
theories/P_Module.v
theories/M_WMount.v
theories/Spec_WMount.v
theories/L_WMount.v
theories/X_WMount.v
theories/P_WMount.v
theories/M_Dokan.v
theories/Spec_Dokan.v
theories/L_Dokan.v
theories/L_Dokan2.v
theories/X_Dokan.v
theories/P_Dokan.v
theories/Spec_SetWrite.v
theories/L_SetWrite.v
theories/L_SetWrite2.v
theories/P_SetWrite.v
theories/Spec_Stores.v
theories/L_Stores.v
theories/L_Stores2.v
theories/X_Stores.v
theories/P_Stores.v
theories/M_Mem.v
theories/Spec_Mem.v
theories/L_Mem.v
theories/L_Mem2.v
theories/L_Mem3.v
theories/L_Mem4.v
theories/L_Mem5.v
theories/L_Mem6.v
theories/P_Mem.v
theories/Spec_Doc.v
theories/L_Doc.v
theories/P_Doc.v
theories/Spec_DocMount.v
theories/L_DocMount.v
theories/P_DocMount.v
theories/Spec_DocDokan.v
theories/L_DocDokan.v
theories/P_DocDokan.v
theories/Spec_Fault.v
theories/L_Fault.v
theories/L_Fault2.v
theories/L_Fault3.v
theories/P_Fault.v
theories/Spec_Foot.v
theories/L_Foot.v
theories/X_Foot.v
theories/P_Foot.v
theories/M_PropMem.v
theories/Spec_PropMem.v
theories/L_PropMem.v
theories/P_PropMem.v
theories/M_Api.v
theories/Spec_Api.v
theories/L_Api.v
theories/L_Api2.v
theories/L_Api3.v
theories/L_Api4.v
theories/P_Api.v
theories/Spec_DocInfo.v
theories/L_DocInfo.v
theories/P_DocInfo.v
theories/Spec_Requests.v
theories/L_Requests.v
theories/P_Requests.v
theories/Spec_Salvage.v
theories/L_Salvage.v
theories/P_Salvage.v
theories/L_Careful.v
theories/Spec_InfoDamage.v
theories/L_InfoDamage.v
theories/P_InfoDamage.v
theories/Spec_MountDamage.v
theories/L_MountDamage.v
theories/P_MountDamage.v
theories/M_MountTool.v
theories/Spec_MountTool.v
theories/L_MountTool.v
theories/P_MountTool.v
theories/Spec_Trace.v
theories/L_Trace.v
theories/P_Trace.v
theories/M_InfoTool.v
theories/Spec_InfoTool.v
theories/L_InfoTool.v
theories/L_InfoGrow.v
theories/L_InfoTool2.v
theories/P_InfoTool.v
theories/M_Fuzz.v
theories/Spec_Fuzz.v
theories/L_Fuzz.v
theories/P_Fuzz.v
theories/M_ExportMem.v
theories/L_ExportMem.v
theories/L_ExportMem2.v
theories/L_ExportMem3.v
theories/L_ExportMem4.v
theories/P_ExportMem.v
theories/Spec_DocExport.v
theories/L_DocExport.v
theories/P_DocExport.v
