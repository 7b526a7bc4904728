-Q theories Verif
theories/PyBase.v
theories/PyFloat.v
theories/SpecStr.v
theories/PyFacts.v
theories/PyFs.v
theories/M_util.v
theories/SpecUtil.v
theories/P_util.v
theories/FloatFacts.v
theories/FloatR.v
theories/FloatZ.v
theories/P_util_R.v
theories/Prop_util.v
theories/PyArith.v
theories/PyArithR.v
theories/M_const.v
theories/SpecConst.v
theories/P_const.v
theories/Prop_const.v
theories/M_input.v
theories/PyNumFacts.v
theories/SpecInput.v
theories/TextFacts.v
theories/P_input.v
theories/P_input2.v
theories/P_input3.v
theories/P_input4.v
theories/Prop_input.v
theories/PyIo.v
theories/M_output.v
theories/SpecOutput.v
theories/P_output.v
theories/P_output2.v
theories/P_output3.v
theories/Prop_output.v
theories/M_fluxes.v
theories/M_ptrac.v
theories/SpecFluxes.v
theories/P_fluxes.v
theories/P_fluxes2.v
theories/P_ptrac.v
theories/Prop_fluxes.v
theories/M_mcout.v
theories/SpecMcout.v
theories/P_mcout.v
theories/P_mcout2.v
theories/P_mcout3.v
theories/P_mcout4.v
theories/P_mcout5.v
theories/P_mcout6.v
theories/SpecMcout2.v
theories/P_mcout7.v
theories/P_mcout8.v
theories/P_mcout9.v
theories/P_mcout10.v
theories/P_xsdir.v
theories/TextTac.v
theories/Prop_mcout.v
theories/PyFrame.v
theories/M_mesh.v
theories/SpecMesh.v
theories/Float32.v
theories/P_mesh.v
theories/P_mesh2.v
theories/P_mesh3.v
theories/SpecMesh2.v
theories/P_mesh4.v
theories/P_mesh5.v
theories/P_mesh6.v
theories/P_mesh7.v
theories/Prop_mesh.v
theories/PyReal.v
theories/M_geom.v
theories/SpecGeom.v
theories/P_geom.v
theories/P_geom2.v
theories/P_geom3.v
theories/Prop_geom.v
theories/M_fisout.v
theories/SpecFis.v
theories/ExFis.v
theories/P_fisout.v
theories/P_fisout2.v
theories/P_fisout3.v
theories/P_fisout4.v
theories/P_fisout5.v
theories/P_fisout6.v
theories/P_fisout7.v
theories/Prop_fisout.v
theories/PyTable.v
theories/M_fisana.v
theories/SpecFisana.v
theories/P_fisana.v
theories/P_table.v
theories/P_fisana2.v
theories/P_fisana3.v
theories/P_fisana4.v
theories/M_fisum.v
theories/SpecFisum.v
theories/P_fisum.v
theories/P_fisana5.v
theories/Prop_fisana.v
theories/M_mcana.v
theories/SpecMcana.v
theories/P_mcana.v
theories/P_mcana2.v
theories/P_mcana3.v
theories/P_mcana4.v
theories/P_mcana5.v
theories/SpecMcana2.v
theories/P_mcana6.v
theories/Prop_mcana.v
theories/M_r2s.v
theories/SpecR2s.v
theories/P_r2s.v
theories/P_r2s2.v
theories/P_r2s3.v
theories/P_r2s4.v
theories/P_r2s5.v
theories/P_r2s6.v
theories/Prop_r2s.v
theories/M_runplot.v
theories/SpecRunplot.v
theories/P_runplot.v
theories/Prop_runplot.v
theories/M_meshplot.v
theories/SpecMeshplot.v
theories/P_meshplot.v
theories/M_misc.v
theories/P_misc.v
theories/Prop_misc.v
theories/SpecInput2.v
theories/P_input5.v
theories/M_str.v
theories/PyRepr.v
theories/M_str2.v
theories/SpecStr2.v
theories/P_str2.v
theories/P_str.v
theories/Prop_input2.v
theories/P_rest.v
theories/Prop_mcout2.v
theories/Prop_refuse.v
theories/Prop_rest.v
theories/M_hist.v
theories/SpecHist.v
theories/P_hist.v
theories/Prop_str.v
theories/Prop_hist.v
theories/M_geomf.v
theories/SpecGeomf.v
theories/PiBound.v
theories/P_geomf.v
theories/P_geomf2.v
theories/P_geomf3.v
theories/P_geomf4.v
theories/P_geomf5.v
theories/P_geomf6.v
theories/P_geomf7.v
theories/P_geomf8.v
theories/P_geomf9.v
theories/M_geomt.v
theories/SpecGeomt.v
theories/P_geomt.v
theories/P_geomt2.v
theories/P_geomt3.v
theories/P_geomt4.v
theories/P_geomt5.v
theories/Prop_geomt.v
theories/Prop_geomf.v
theories/P_years.v
theories/Prop_more.v
theories/Prop_mcout3.v
theories/M_mcdump.v
theories/P_mcdump.v
theories/Prop_mcdump.v
