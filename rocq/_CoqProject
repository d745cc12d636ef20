-Q theories Verif
theories/PyBase.v
theories/Model_CIDict.v
theories/Spec_CIDict.v
theories/Proofs_CIDict.v
theories/Props_CIDict.v
theories/Model_Modify.v
theories/Spec_Modify.v
theories/Proofs_Modify.v
theories/Proofs_Modify2.v
theories/Props_Modify.v
theories/Model_Tx.v
theories/Spec_Tx.v
theories/Proofs_Tx.v
theories/Proofs_Tx2.v
theories/Proofs_Tx3.v
theories/Props_Tx.v
theories/Model_Filter.v
theories/Spec_Filter.v
theories/Proofs_Filter.v
theories/Proofs_Filter2.v
theories/Props_Filter.v
theories/Model_PrepTable.v
theories/Model_Prep.v
theories/Spec_PrepTable.v
theories/Spec_Prep.v
theories/Proofs_Prep.v
theories/Props_Prep.v
theories/Model_Net.v
theories/Spec_Net.v
theories/Proofs_Net.v
theories/Props_Net.v
theories/Model_Uri.v
theories/Spec_Uri.v
theories/Proofs_Uri.v
theories/Props_Uri.v
theories/Model_Conn.v
theories/Spec_Conn.v
theories/Proofs_Conn.v
theories/Props_Conn.v
theories/Model_Controls.v
theories/Spec_Controls.v
theories/Proofs_Controls.v
theories/Props_Controls.v
theories/Model_Schema.v
theories/Spec_Schema.v
theories/Proofs_Schema.v
theories/Props_Schema.v
theories/Model_Ldif.v
theories/Spec_Ldif.v
theories/Proofs_Ldif.v
theories/Proofs_Ldif2.v
theories/Proofs_Ldif3.v
theories/Proofs_Ldif4.v
theories/Proofs_Ldif5.v
theories/Proofs_Ldif6.v
theories/Props_Ldif.v
theories/Model_Search.v
theories/Spec_Search.v
theories/Proofs_Search.v
theories/Proofs_Search2.v
theories/Props_Search.v
theories/Model_Dir.v
theories/Spec_Dir.v
theories/Proofs_Dir.v
theories/Proofs_Dir2.v
theories/Proofs_DirInst.v
theories/Proofs_Dir3.v
theories/Proofs_Dir4.v
theories/Props_Dir.v
theories/Model_Netgroups.v
theories/Spec_Netgroups.v
theories/Proofs_Netgroups.v
theories/Props_Netgroups.v
theories/Model_Desc.v
theories/Spec_Desc.v
theories/Proofs_Desc.v
theories/Proofs_Desc2.v
theories/Props_Desc.v
theories/Model_Registration.v
theories/Spec_Registration.v
theories/Proofs_Registration.v
theories/Proofs_Registration2.v
theories/Proofs_Registration3.v
theories/Props_Registration.v
theories/Model_Extensible.v
theories/Proofs_Extensible.v
theories/Props_Extensible.v
theories/Model_Config.v
theories/Spec_Config.v
theories/Proofs_Config.v
theories/Proofs_Config2.v
theories/Proofs_Config3.v
theories/Props_Config.v
theories/Model_Regex.v
theories/Spec_Regex.v
theories/Proofs_Regex.v
theories/Model_Parse.v
theories/Spec_Parse.v
theories/Proofs_Parse.v
theories/Proofs_Parse2.v
theories/Proofs_Parse3.v
theories/Proofs_Parse4.v
theories/Proofs_Parse5.v
theories/Proofs_Parse6.v
theories/Proofs_Parse7.v
theories/Proofs_Parse8.v
theories/Props_Parse.v
theories/Model_Syntax.v
theories/Spec_Syntax.v
theories/Proofs_Syntax.v
theories/Proofs_Syntax2.v
theories/Proofs_Syntax3.v
theories/Proofs_Syntax4.v
theories/Props_Syntax.v
theories/Model_Guide.v
theories/Spec_Guide.v
theories/Proofs_Guide.v
theories/Proofs_Guide2.v
theories/Props_Guide.v
theories/Model_Sasl.v
theories/Spec_Sasl.v
theories/Proofs_Sasl.v
theories/Props_Sasl.v
theories/Model_DescSyntax.v
theories/Spec_DescSyntax.v
theories/Proofs_DescSyntax.v
theories/Proofs_DescSyntax2.v
theories/Props_DescSyntax.v
theories/Model_Request.v
theories/Spec_Request.v
theories/Proofs_Request.v
theories/Props_Request.v
theories/Model_Paged.v
theories/Spec_Paged.v
theories/Proofs_Paged.v
theories/Spec_Ber.v
theories/Proofs_Ber.v
theories/Props_Paged.v
theories/Model_Rules.v
theories/Spec_Rules.v
theories/Proofs_Rules.v
theories/Props_Rules.v
theories/Model_Tls.v
theories/Spec_Tls.v
theories/Proofs_Tls.v
theories/Props_Tls.v
theories/Model_NgSearch.v
theories/Spec_NgSearch.v
theories/Proofs_NgSearch.v
theories/Props_NgSearch.v
theories/Model_Object.v
theories/Spec_Object.v
theories/Proofs_Object.v
theories/Props_Object.v
theories/Spec_X690.v
theories/Proofs_X690.v
theories/Model_Wire.v
theories/Spec_Wire.v
theories/Spec_Wire2.v
theories/Proofs_Wire.v
theories/Proofs_Wire2.v
theories/Proofs_Wire3.v
theories/Proofs_Wire4.v
theories/Proofs_Wire5.v
theories/Proofs_Wire6.v
theories/Props_Wire.v
theories/Model_Reply.v
theories/Spec_Reply.v
theories/Proofs_Utf8.v
theories/Proofs_Reply.v
theories/Props_Reply.v
theories/Model_StdText.v
theories/Model_Std.v
theories/Spec_StdTable.v
theories/Spec_Std.v
theories/Proofs_Std.v
theories/Proofs_StdUse.v
theories/Proofs_StdAll.v
theories/Props_Std.v
theories/Model_Life.v
theories/Spec_Life.v
theories/Proofs_Life.v
theories/Proofs_Life2.v
theories/Proofs_Life3.v
theories/Proofs_Life4.v
theories/Proofs_Life5.v
theories/Props_Life.v
theories/Spec_Coherent.v
theories/Proofs_Coherent.v
theories/Proofs_Coherent2.v
theories/Props_Coherent.v
theories/Model_Stream.v
theories/Spec_Stream.v
theories/Proofs_Stream.v
theories/Props_Stream.v
theories/Model_Const.v
theories/Spec_Const.v
theories/Proofs_Const.v
theories/Props_Const.v
theories/Model_Session.v
theories/Spec_Session.v
theories/Proofs_Session.v
theories/Props_Session.v
theories/Model_Layer.v
theories/Spec_Layer.v
theories/Proofs_Layer.v
theories/Props_Layer.v
theories/Spec_PyRepr.v
theories/Props_Wire2.v
theories/Props_Config2.v
theories/Props_Const2.v
theories/Props_CIDict2.v
theories/Spec_Ldif2.v
theories/Proofs_Ldif7.v
theories/Proofs_Ldif8.v
theories/Props_Ldif2.v
theories/Props_Extensible2.v
theories/Spec_Utf8.v
theories/Proofs_Utf8b.v
theories/Props_Ldif3.v
theories/Spec_Prep2.v
theories/Props_Prep2.v
theories/Props_Modify2.v
theories/Props_Tls2.v
theories/Props_Paged2.v
theories/Props_Guide2.v
theories/Props_Request2.v
theories/Model_LSession.v
theories/Spec_LSession.v
theories/Proofs_LSession.v
theories/Props_LSession.v
theories/Spec_Coherent2.v
theories/Proofs_Coherent3.v
theories/Proofs_Coherent4.v
theories/Props_Coherent2.v
theories/Props_Tls3.v
theories/Props_Paged3.v
theories/Props_CIDict3.v
theories/Props_Life2.v
theories/Props_Modify3.v
theories/Model_Open.v
theories/Spec_Open.v
theories/Proofs_Open.v
theories/Props_Open.v
theories/Model_Notice.v
theories/Spec_Notice.v
theories/Proofs_Notice.v
theories/Props_Notice.v
theories/Model_XStream.v
theories/Spec_XStream.v
theories/Proofs_XStream.v
theories/Props_XStream.v
theories/Model_SaslWire.v
theories/Spec_SaslWire.v
theories/Proofs_SaslWire.v
theories/Props_SaslWire.v
