-Q theories Verif
theories/PyBase.v
theories/PyBaseFacts.v
theories/Model_Text.v
theories/Spec_Text.v
theories/Proof_Text.v
theories/Prop_Text.v
theories/Model_Heap.v
theories/Model_Layer.v
theories/Model_Types.v
theories/Spec_Layer.v
theories/Proof_Heap.v
theories/Proof_Layer.v
theories/Proof_Layer2.v
theories/Proof_Layer3.v
theories/Spec_History.v
theories/Proof_History.v
theories/Proof_Layer4.v
theories/Prop_Layer.v
theories/Spec_Types.v
theories/Proof_Types.v
theories/Prop_Types.v
theories/Model_Msgpack.v
theories/Spec_Msgpack.v
theories/Proof_Msgpack.v
theories/Prop_Msgpack.v
theories/Model_Document.v
theories/Model_Coerce.v
theories/Model_Codec.v
theories/Spec_Document.v
theories/Proof_Document.v
theories/Prop_Document.v
theories/Proof_Layout.v
theories/Spec_Codec.v
theories/Proof_Codec.v
theories/Proof_Codec2.v
theories/Proof_Codec3.v
theories/Proof_Codec4.v
theories/Proof_Codec5.v
theories/Proof_Codec6.v
theories/Prop_Codec.v
theories/Model_Lazy.v
theories/Model_Json.v
theories/Spec_Lazy.v
theories/Proof_Lazy.v
theories/Proof_Json.v
theories/Proof_Lazy2.v
theories/Prop_Lazy.v
theories/Model_Collection.v
theories/Spec_Collection.v
theories/Proof_Collection.v
theories/Proof_Collection2.v
theories/Prop_Collection.v
theories/Model_Index.v
theories/Spec_Index.v
theories/Proof_Index.v
theories/Proof_Index2.v
theories/Prop_Index.v
theories/Model_Tar.v
theories/Spec_Tar.v
theories/Proof_Tar.v
theories/Prop_Tar.v
theories/Spec_Registry.v
theories/Proof_Registry.v
theories/Prop_Registry.v
theories/Model_Boundary.v
theories/Spec_Boundary.v
theories/Proof_Boundary.v
theories/Proof_Boundary2.v
theories/Prop_Boundary.v
theories/Model_Graph.v
theories/Spec_Graph.v
theories/Proof_Graph.v
theories/Proof_Graph2.v
theories/Prop_Graph.v
theories/Model_Algorithm.v
theories/Spec_Algorithm.v
theories/Proof_Algorithm.v
theories/Proof_Algorithm2.v
theories/Proof_Algorithm3.v
theories/Proof_Algorithm4.v
theories/Proof_Algorithm5.v
theories/Prop_Algorithm.v
theories/Model_Query.v
theories/Spec_Query.v
theories/Proof_Query.v
theories/Proof_Query2.v
theories/Prop_Query.v
theories/Model_Printout.v
theories/Spec_Printout.v
theories/Proof_Printout.v
theories/Proof_Printout2.v
theories/Proof_Printout3.v
theories/Proof_Printout4.v
theories/Prop_Printout.v
theories/Model_XmlString.v
theories/Spec_XmlString.v
theories/Proof_XmlString.v
theories/Prop_XmlString.v
theories/Model_Xml.v
theories/Spec_Xml.v
theories/Proof_Xml.v
theories/Proof_Xml2.v
theories/Proof_Xml3.v
theories/Prop_Xml.v
theories/Model_Nodes.v
theories/Spec_Nodes.v
theories/Proof_Nodes.v
theories/Proof_Nodes2.v
theories/Prop_Nodes.v
theories/Model_Repr.v
theories/Spec_Repr.v
theories/Proof_Repr.v
theories/Prop_Repr.v
theories/Model_Path.v
theories/Spec_Path.v
theories/Proof_Path.v
theories/Proof_Path2.v
theories/Proof_Path3.v
theories/Prop_Path.v
theories/Model_JsonText.v
theories/Spec_JsonText.v
theories/Proof_JsonText.v
theories/Proof_JsonText2.v
theories/Proof_JsonText3.v
theories/Spec_JsonForm.v
theories/Proof_JsonForm.v
theories/Proof_JsonText4.v
theories/Prop_JsonText.v
theories/Model_XmlText.v
theories/Spec_XmlText.v
theories/Proof_XmlText.v
theories/Proof_XmlText2.v
theories/Proof_XmlText3.v
theories/Proof_XmlText4.v
theories/Spec_XmlForm.v
theories/Proof_XmlForm.v
theories/Prop_XmlText.v
theories/Spec_Exact.v
theories/Proof_Exact.v
theories/Proof_Exact2.v
theories/Prop_Exact.v
theories/Spec_Program.v
theories/Proof_Program.v
theories/Prop_Program.v
theories/Model_Schema.v
theories/Spec_Schema.v
theories/Proof_Schema.v
theories/Prop_Schema.v
theories/Model_Pickle.v
theories/Spec_Local.v
theories/Proof_Local.v
theories/Proof_Local2.v
theories/Prop_Local.v
theories/Prop_Pickle.v
theories/Spec_Refusal.v
theories/Proof_Refusal.v
theories/Prop_Refusal.v
theories/Spec_Errors.v
theories/Proof_Errors.v
theories/Proof_Errors2.v
theories/Model_Same.v
theories/Spec_Same.v
theories/Proof_Same.v
theories/Prop_Errors.v
theories/Spec_Cut.v
theories/Proof_Cut.v
theories/Proof_Cut2.v
theories/Spec_Decode.v
theories/Proof_Decode.v
theories/Proof_Decode2.v
theories/Proof_Decode3.v
theories/Proof_Decode4.v
theories/Proof_Decode5.v
theories/Prop_Decode.v
theories/Spec_Coerce.v
theories/Proof_Coerce.v
theories/Proof_Coerce2.v
theories/Proof_Coerce3.v
theories/Proof_Coerce4.v
theories/Proof_Coerce5.v
theories/Proof_Coerce6.v
theories/Prop_Coerce.v
theories/Spec_Spell.v
theories/Proof_Spell.v
theories/Proof_Spell2.v
theories/Proof_Spell3.v
theories/Prop_Spell.v
theories/Model_Fld.v
theories/Proof_Fld.v
theories/Prop_Fld.v
theories/Model_PyRepr.v
theories/Spec_PyRepr.v
theories/Proof_PyRepr.v
theories/Prop_PyRepr.v
theories/Spec_AnyFile.v
theories/Proof_AnyFile.v
theories/Prop_AnyFile.v
theories/Prop_Same.v
theories/Spec_AnyIndex.v
theories/Proof_AnyIndex.v
theories/Prop_AnyIndex.v
theories/Spec_AnyValue.v
theories/Proof_AnyValue.v
theories/Proof_AnyValue2.v
theories/Prop_AnyValue.v
theories/Model_JBoundary.v
theories/Spec_JBoundary.v
theories/Proof_JBoundary.v
theories/Proof_JBoundary2.v
theories/Prop_JBoundary.v
theories/Model_JStream.v
theories/Spec_JStream.v
theories/Proof_JStream.v
theories/Proof_JStream2.v
theories/Prop_JStream.v
theories/Model_JAlgorithm.v
theories/Model_JGroup.v
theories/Spec_JAlgorithm.v
theories/Spec_JGroup.v
theories/Proof_JAlgorithm.v
theories/Proof_JGroup.v
theories/Proof_JGroup2.v
theories/Proof_JGroup3.v
theories/Proof_JAlgorithm2.v
theories/Prop_JAlgorithm.v
theories/Model_JLayer.v
theories/Spec_JLayer.v
theories/Proof_JLayer.v
theories/Proof_JLayer2.v
theories/Prop_JLayer.v
theories/Model_JText.v
theories/Spec_JText.v
theories/Proof_JText.v
theories/Proof_JText2.v
theories/Proof_JText3.v
theories/Prop_JText.v
theories/Model_JUnits.v
theories/Spec_JUnits.v
theories/Proof_JUnits.v
theories/Prop_JUnits.v
theories/Model_JCodec.v
theories/Spec_JCodec.v
theories/Proof_JCodec.v
theories/Proof_JCodec2.v
theories/Spec_Names.v
theories/Proof_Names.v
theories/Prop_JCodec.v
theories/Model_JEncode.v
theories/Spec_JEncode.v
theories/Proof_JEncode.v
theories/Proof_JEncode2.v
theories/Proof_JEncode3.v
theories/Proof_JEncode4.v
theories/Prop_JEncode.v
theories/Model_JBuffer.v
theories/Spec_JBuffer.v
theories/Proof_JBuffer.v
theories/Prop_JBuffer.v
theories/Model_JDocument.v
theories/Spec_JDocument.v
theories/Proof_JDocument.v
theories/Prop_JDocument.v
theories/Model_JEdit.v
theories/Spec_JEdit.v
theories/Proof_JEdit.v
theories/Proof_JEdit2.v
theories/Proof_JEdit3.v
theories/Prop_JEdit.v
theories/Spec_JDecode.v
theories/Proof_JDecode.v
theories/Proof_JDecode2.v
theories/Proof_JDecode3.v
theories/Proof_JDecode4.v
theories/Prop_JDecode.v
theories/Proof_JCut.v
theories/Proof_JCut2.v
theories/Prop_JCut.v
theories/Model_JHadoop.v
theories/Spec_JHadoop.v
theories/Proof_JHadoop.v
theories/Prop_JHadoop.v
theories/Model_JValue.v
theories/Spec_JValue.v
theories/Proof_JValue.v
theories/Proof_JValue2.v
theories/Proof_JValue3.v
theories/Prop_JValue.v
theories/Model_JValue2.v
theories/Spec_JValue2.v
theories/Proof_JValue4.v
theories/Prop_JValue2.v
theories/Model_Debug.v
theories/Spec_Debug.v
theories/Proof_Debug.v
theories/Proof_Debug2.v
theories/Proof_Pandas.v
theories/Prop_Debug.v
theories/Spec_Through.v
theories/Proof_Through.v
theories/Proof_Through2.v
theories/Proof_Through3.v
theories/Proof_Through4.v
theories/Proof_Through5.v
theories/Proof_Through6.v
theories/Prop_Through.v
theories/Model_Declare.v
theories/Spec_Declare.v
theories/Proof_Declare.v
theories/Prop_Declare.v
theories/Spec_JWrite.v
theories/Proof_JWrite.v
theories/Proof_JWrite2.v
theories/Prop_JWrite.v
theories/Spec_Return.v
theories/Proof_Return.v
theories/Prop_Return.v
theories/Model_JConcrete.v
theories/Spec_JConcrete.v
theories/Proof_JConcrete.v
theories/Prop_JConcrete.v
theories/Model_With.v
theories/Spec_With.v
theories/Proof_With.v
theories/Prop_With.v
theories/Spec_Refused.v
theories/Proof_Refused.v
theories/Proof_Refused2.v
theories/Proof_Refused3.v
theories/Prop_Refused.v
theories/Spec_Contents.v
theories/Proof_Contents.v
theories/Proof_Contents2.v
theories/Proof_Contents3.v
theories/Prop_Contents.v
theories/Spec_JRefused.v
theories/Proof_JRefused.v
theories/Spec_JRefs.v
theories/Proof_JRefs.v
theories/Spec_JCells.v
theories/Proof_JCells.v
theories/Proof_JCells2.v
theories/Prop_JRefused.v
